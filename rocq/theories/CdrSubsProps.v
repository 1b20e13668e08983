(** The subscribers and SIM cards of the CDR scenario, from its construction. *)
From Verif Require Import Base BaseFacts Rng RngFacts Utils UtilsFacts Relationship RelationshipFacts SpecRelationship RelationshipProps
  Frame Gens GensProps Clock SpecClock ClockProps Attribute AttributeFacts World Story Ops Circus SpecStory PopMore Geography SpecWorld SpecPopulation SpecLedger SpecRecords GeographyRun GeographyBuild
  Components ComponentsFacts Cdr CdrSetup CdrChoice CdrSubs SpecCdrSetup.
From Coq Require Import Permutation Lqa.
Local Open Scope nat_scope.

Lemma in_items_of w r k v : In v (items w r k) <-> In (k, v) (pairs_of w r).
Proof.
  unfold items, about. rewrite in_map_iff. split.
  - intros ([a b] & <- & H). apply filter_In in H as [H E]. cbn in E. apply val_eqb_eq in E. cbn in *. now subst.
  - intros H. exists (k, v). split; [reflexivity|]. apply filter_In. split; [exact H|]. cbn. now apply val_eqb_eq.
Qed.

Lemma mapping_in ids : forall opss i o, In (i, o) (subs_ops_mapping ids opss) -> In i ids /\ exists ops, In ops opss /\ In o ops.
Proof.
  induction ids as [|j ids IH]; intros [|ops opss] i o H; try destruct H. unfold subs_ops_mapping in *. cbn [combine flat_map] in H.
  apply in_app_iff in H as [H|H].
  - apply in_map_iff in H as (o' & [= -> ->] & Ho). split; [now left|]. exists ops. split; [now left|exact Ho].
  - apply IH in H as (A & ops' & B & C). split; [now right|]. exists ops'. split; [now right|exact C].
Qed.
Lemma mapping_about ids : forall opss, NoDup ids -> length opss = length ids -> forall i, In i ids ->
  exists ops, In ops opss /\ map snd (about i (subs_ops_mapping ids opss)) = ops.
Proof.
  induction ids as [|j ids IH]; intros [|ops opss] Nd L i Hi; try discriminate; [destruct Hi|]. injection L as L. inversion Nd as [|? ? N1 N2]; subst.
  unfold subs_ops_mapping, about in *. cbn [combine flat_map]. rewrite filter_app, map_app.
  assert (A : forall k, filter (fun x : val * val => val_eqb (fst x) k) (map (fun o => (j, o)) ops) = if val_eqb j k then map (fun o => (j, o)) ops else []).
  { intros k. clear. induction ops as [|o ops IH]; cbn; [now destruct (val_eqb j k)|]. rewrite IH. now destruct (val_eqb j k). }
  rewrite A. destruct Hi as [->|Hi].
  - exists ops. split; [now left|]. rewrite (proj2 (val_eqb_eq i i) eq_refl), map_map. cbn. rewrite map_id.
    replace (filter _ (flat_map _ _)) with (@nil (val * val)); [apply app_nil_r|]. symmetry.
    destruct (filter _ _) as [|[k o] l] eqn:E; [reflexivity|]. exfalso.
    assert (H : In (k, o) (filter (fun x : val * val => val_eqb (fst x) i) (subs_ops_mapping ids opss))) by (unfold subs_ops_mapping; rewrite E; now left).
    apply filter_In in H as [H K]. cbn in K. apply val_eqb_eq in K. subst. now apply mapping_in in H.
  - destruct (val_eqb j i) eqn:E; [apply val_eqb_eq in E; subst; contradiction|]. cbn [map app].
    destruct (IH opss N2 L i Hi) as (o & B & C). exists o. split; [now right|exact C].
Qed.

Lemma combine_unique {A B} (l : list A) : forall (m : list B) a a' b, NoDup m -> In (a, b) (combine l m) -> In (a', b) (combine l m) -> a = a'.
Proof.
  induction l as [|x l IH]; intros [|y m] a a' b Nd H H'; try destruct H. 
  - inversion Nd; subst. injection H as -> ->. destruct H' as [[= ->]|H']; [reflexivity|]. apply in_combine_r in H'. contradiction.
  - inversion Nd; subst. destruct H' as [[= -> ->]|H']; [apply in_combine_r in H; contradiction|]. eapply IH; eauto.
Qed.
Lemma combine_unique_l {A B} (l : list A) : forall (m : list B) a b b', NoDup l -> In (a, b) (combine l m) -> In (a, b') (combine l m) -> b = b'.
Proof.
  induction l as [|x l IH]; intros [|y m] a b b' Nd H H'; try destruct H.
  - inversion Nd; subst. injection H as -> ->. destruct H' as [[= ->]|H']; [reflexivity|]. apply in_combine_l in H'. contradiction.
  - inversion Nd; subst. destruct H' as [[= -> ->]|H']; [apply in_combine_l in H; contradiction|]. eapply IH; eauto.
Qed.
Lemma combine_has_l {A B} (l : list A) : forall (m : list B) a, length l = length m -> In a l -> exists b, In (a, b) (combine l m).
Proof.
  induction l as [|x l IH]; intros [|y m] a L H; try discriminate; [destruct H|]. destruct H as [->|H]; [exists y; now left|].
  injection L as L. destruct (IH m a L H) as (b & Hb). exists b. now right.
Qed.
Lemma combine_has_r {A B} (l : list A) : forall (m : list B) b, length l = length m -> In b m -> exists a, In (a, b) (combine l m).
Proof.
  induction l as [|x l IH]; intros [|y m] b L H; try discriminate; [destruct H|]. destruct H as [->|H]; [exists x; now left|].
  injection L as L. destruct (IH m b L H) as (a & Ha). exists a. now right.
Qed.
(** The SIMs of one subscriber, with their operators. *)
Lemma about_combine (mapping : list (val * val)) : forall sims : list val, length sims = length mapping -> forall i,
  length (about i (combine (map fst mapping) sims)) = length (about i mapping).
Proof.
  induction mapping as [|[j o] mapping IH]; intros [|s sims] L i; try discriminate; [reflexivity|]. injection L as L. unfold about in *. cbn.
  destruct (val_eqb j i); cbn; rewrite IH by exact L; reflexivity.
Qed.
Lemma combine_ops (mapping : list (val * val)) : forall (sims : list val) i s o, In (i, s) (combine (map fst mapping) sims) -> NoDup sims -> In (s, o) (combine sims (map snd mapping)) ->
  exists n, nth_error mapping n = Some (i, o) /\ nth_error sims n = Some s.
Proof.
  induction mapping as [|[j p] mapping IH]; intros [|s0 sims] i s o H Nd Ho; try destruct H; inversion Nd; subst.
  - injection H as -> ->. destruct Ho as [[= ->]|Ho]; [exists 0; auto|]. apply in_combine_l in Ho. contradiction.
  - destruct Ho as [[= -> ->]|Ho]; [apply in_combine_r in H; contradiction|]. destruct (IH _ _ _ _ H ltac:(assumption) Ho) as (n & A & B). now exists (S n).
Qed.
Lemma about_positions (i : val) : forall mapping, NoDup (map snd (about i mapping)) -> forall n m o, nth_error mapping n = Some (i, o) -> nth_error mapping m = Some (i, o) -> n = m.
Proof.
  induction mapping as [|[j p] mapping IH]; intros Nd n m o H1 H2; [now destruct n|].
  assert (R : val_eqb i i = true) by now apply val_eqb_eq.
  assert (K : forall n o, nth_error mapping n = Some (i, o) -> In o (map snd (about i mapping))).
  { intros k o' H. apply nth_error_In in H. apply in_map_iff. exists (i, o'). split; [reflexivity|]. apply filter_In. auto. }
  unfold about in Nd. cbn in Nd. destruct n as [|n], m as [|m]; [reflexivity| | |].
  - cbn in H1, H2. injection H1 as -> ->. rewrite R in Nd. cbn in Nd. inversion Nd as [|? ? X Y]; subst. exfalso. apply X. exact (K _ _ H2).
  - cbn in H1, H2. injection H2 as -> ->. rewrite R in Nd. cbn in Nd. inversion Nd as [|? ? X Y]; subst. exfalso. apply X. exact (K _ _ H1).
  - cbn in H1, H2. f_equal. eapply IH; eauto. destruct (val_eqb j i); [now inversion Nd|exact Nd].
Qed.

Section Built.
  Variables (x : cdr_sources) (params : cdr_params).
  Variables (w : world) (opss : list (list val)) (df : list (val * val)) (numbs : list val) (rs : list Q) (pg : prng) (s1 s2 : N) (rel_sims rel_agents : relationship).
  Let mapping := subs_ops_mapping (subs_ids params) opss.
  Let sims := sims_ids (length mapping).
  Hypothesis Hn : (0 < n_subscribers params)%Z.
  Hypothesis Lo : length opss = length (subs_ids params).
  Hypothesis Go : Forall good_operators opss.
  Hypothesis Hdf : forall a b, In (a, b) df -> In a sims /\ In b (agent_ids params).
  Hypothesis Ln : length numbs = length mapping.
  Hypothesis Nn : NoDup numbs.
  Hypothesis Hnum : forall v, In v numbs -> exists p tail, v = VStr ("0032" ++ p ++ tail) /\ In p msisdn_prefixes /\ String.length tail = digits params /\ digits_only tail.
  Hypothesis Lr : length rs = length df.
  Hypothesis Es : add_relations (new_relationship pg s1) (map fst mapping) sims (WScalar 1) = Ok rel_sims.
  Hypothesis Ea : add_relations (new_relationship pg s2) (map fst df) (map snd df) (WArray rs) = Ok rel_agents.
  Variables (subs sim_pop owned dealers operator account number : nat).
  Hypothesis Wsims : nth_error (w_rels w) owned = Some rel_sims.
  Hypothesis Wagents : nth_error (w_rels w) dealers = Some rel_agents.
  Hypothesis Wop : nth_error (w_attrs w) operator = Some (combine sims (map snd mapping)).
  Hypothesis Wacc : nth_error (w_attrs w) account = Some (combine sims (repeat (vz 1000) (length mapping))).
  Hypothesis Wnum : nth_error (w_attrs w) number = Some (combine sims numbs).
  Hypothesis Psubs : dget "subs"%string (w_pop_names w) = Some subs /\ exists po, nth_error (w_pops w) subs = Some po /\ p_ids po = subs_ids params /\ dget "SIMS"%string (p_rels po) = Some owned.
  Hypothesis Psims : dget "sims"%string (w_pop_names w) = Some sim_pop /\ exists po, nth_error (w_pops w) sim_pop = Some po /\ p_ids po = sims /\ dget "POSSIBLE_AGENTS"%string (p_rels po) = Some dealers /\
    dget "OPERATOR"%string (p_attrs po) = Some operator /\ dget "MAIN_ACCT"%string (p_attrs po) = Some account /\ dget "MSISDN"%string (p_attrs po) = Some number.

  Lemma built_sims_length : length sims = length mapping.
  Proof. unfold sims, sims_ids. rewrite map_length, build_ids_length. lia. Qed.
  Lemma built_sims_NoDup : NoDup sims. Proof. apply seq_ids_NoDup. Qed.
  Lemma built_subs_NoDup : NoDup (subs_ids params). Proof. apply seq_ids_NoDup. Qed.
  Lemma built_pairs : Permutation (pairs_of w owned) (combine (map fst mapping) sims).
  Proof.
    unfold pairs_of. rewrite Wsims. rewrite (Permutation_map fst (add_exact _ _ _ _ _ (reach_new _ _) Es)). rewrite new_rel_stored. cbn [app].
    rewrite lines3_fst; [reflexivity|rewrite map_length; apply built_sims_length|cbn [weights_list]; now rewrite repeat_length].
  Qed.
  Lemma built_dealers : Permutation (pairs_of w dealers) df.
  Proof.
    unfold pairs_of. rewrite Wagents. rewrite (Permutation_map fst (add_exact _ _ _ _ _ (reach_new _ _) Ea)). rewrite new_rel_stored. cbn [app].
    rewrite lines3_fst; [|now rewrite !map_length|cbn [weights_list]; now rewrite map_length].
    replace (combine (map fst df) (map snd df)) with df; [reflexivity|]. clear. induction df as [|[a b] l IH]; cbn; [reflexivity|]. now f_equal.
  Qed.
  Lemma built_in i s : In s (items w owned i) <-> In (i, s) (combine (map fst mapping) sims).
  Proof. rewrite in_items_of. split; apply Permutation_in; [|symmetry]; apply built_pairs. Qed.
  Lemma attr_holds a t k v : nth_error (w_attrs w) a = Some t -> (holds w a k v <-> In (k, v) t).
  Proof. intros E. unfold holds. split; [intros (t' & E' & H); congruence|eauto]. Qed.
  Lemma attr_only a (vs : list val) k : nth_error (w_attrs w) a = Some (combine sims vs) -> length vs = length sims -> In k sims -> exists v, In (k, v) (combine sims vs) /\ only_holds w a k v.
  Proof.
    intros E L Hk. destruct (combine_has_l sims vs k (eq_sym L) Hk) as (v & Hv). exists v. split; [exact Hv|]. intros v'. rewrite (attr_holds _ _ _ _ E). split; [|now intros ->].
    intros H. eapply combine_unique_l; [apply built_sims_NoDup|exact H|exact Hv].
  Qed.

  Lemma built_telephony : telephony w params subs sim_pop owned dealers operator account number (subs_ids params) sims.
  Proof.
    pose proof built_sims_length as Ls. pose proof built_sims_NoDup as Ns. pose proof built_subs_NoDup as Nsb.
    destruct Psubs as (P1 & po & P2 & P3 & P4). destruct Psims as (Q1 & qo & Q2 & Q3 & Q4 & Q5 & Q6 & Q7).
    constructor.
    - split; [|unfold subs_ids; rewrite map_length, build_ids_length; lia]. split; [exact P1|]. split; [exact Nsb|]. eauto.
    - split; [exact Q1|]. split; [exact Ns|]. eauto.
    - unfold relationship_at, attribute_at. repeat split; eauto.
    - intros s Hs. destruct (combine_has_r (map fst mapping) sims s) as (i & Hi); [rewrite map_length; lia|exact Hs|]. exists i. split.
      + apply in_combine_l, in_map_iff in Hi as ([j o] & <- & Hj). now apply mapping_in in Hj.
      + intros j. rewrite built_in. split; [intros H; exact (combine_unique _ _ _ _ _ Ns H Hi)|now intros ->].
    - intros i s H. apply built_in in H. now apply in_combine_r in H.
    - intros i Hi. destruct (mapping_about (subs_ids params) opss Nsb Lo i Hi) as (ops & Hops & E). fold mapping in E.
      rewrite Forall_forall in Go. destruct (Go _ Hops) as (G1 & _). split.
      + unfold items. rewrite map_length. rewrite (Permutation_length (l' := about i (combine (map fst mapping) sims))).
        * rewrite about_combine by exact Ls. rewrite <- E, map_length in G1. exact G1.
        * unfold about. pose proof built_pairs as P. revert P. generalize (pairs_of w owned), (combine (map fst mapping) sims). clear. intros l1 l2 P. induction P as [|a l l' P IH|a b l|l l' l'' P1 I1 P2 I2]; cbn; [constructor| | |etransitivity; eauto].
          -- destruct (val_eqb (fst a) i); [now constructor|exact IH].
          -- destruct (val_eqb (fst a) i), (val_eqb (fst b) i); try reflexivity. apply perm_swap.
      + assert (N : NoDup (map snd (pairs_of w owned))).
        { eapply Permutation_NoDup; [symmetry; apply Permutation_map, built_pairs|]. replace (map snd (combine (map fst mapping) sims)) with sims; [exact Ns|].
          assert (L : length (map fst mapping) = length sims) by (rewrite map_length; lia). revert L. generalize (map fst mapping), sims. clear. intros l. induction l as [|a l IH]; intros [|s m] L; try discriminate; [reflexivity|]. cbn. f_equal. apply IH. now injection L. }
        unfold items, about. revert N. generalize (pairs_of w owned). clear. intros l. induction l as [|[a b] l IH]; cbn; intros N; [constructor|]. inversion N as [|? ? X Y]; subst.
        destruct (val_eqb a i); cbn [map]; [|exact (IH Y)]. constructor; [|exact (IH Y)]. intros H. apply X. apply in_map_iff in H as (y & Ey & H). cbn in Ey. subst b. apply filter_In in H as [H _]. now apply in_map.
    - intros s Hs. destruct (attr_only operator (map snd mapping) s Wop) as (o & Ho & Hh); [rewrite map_length; lia|exact Hs|]. exists o. split; [|exact Hh].
      apply in_combine_r, in_map_iff in Ho as ([i o'] & <- & Hj). apply mapping_in in Hj as (_ & ops & H1 & H2). rewrite Forall_forall in Go. destruct (Go _ H1) as (_ & _ & I). exact (I _ H2).
    - intros i a b o Ha Hb Oa Ob. apply built_in in Ha, Hb. apply (attr_holds _ _ _ _ Wop) in Oa, Ob.
      destruct (combine_ops _ _ _ _ _ Ha Ns Oa) as (n & N1 & N2). destruct (combine_ops _ _ _ _ _ Hb Ns Ob) as (m & M1 & M2).
      assert (Hi : In i (subs_ids params)). { apply nth_error_In in N1. now apply mapping_in in N1. }
      destruct (mapping_about (subs_ids params) opss Nsb Lo i Hi) as (ops & Hops & E). fold mapping in E. rewrite Forall_forall in Go. destruct (Go _ Hops) as (_ & Nd & _). rewrite <- E in Nd.
      assert (n = m) by (eapply about_positions; eauto). congruence.
    - intros s Hs. destruct (attr_only account (repeat (vz 1000) (length mapping)) s Wacc) as (v & Hv & Hh); [rewrite repeat_length; lia|exact Hs|]. apply in_combine_r, repeat_spec in Hv. now subst v.
    - intros s Hs. destruct (attr_only number numbs s Wnum) as (v & Hv & Hh); [lia|exact Hs|]. exists v. split; [|exact Hh]. apply in_combine_r in Hv. exact (Hnum v Hv).
    - intros a b v Ha Hb. apply (attr_holds _ _ _ _ Wnum) in Ha, Hb. exact (combine_unique _ _ _ _ _ Nn Ha Hb).
    - intros s a H. apply in_items_of in H. apply (Permutation_in _ built_dealers) in H. destruct (Hdf _ _ H) as [H1 H2]. split; [exact H1|].
      unfold agent_ids, build_ids in H2. apply in_map_iff in H2 as (n & <- & H2). apply in_map_iff in H2 as (k & <- & H2). apply in_seq in H2. exists (Z.of_nat k). split; [lia|reflexivity].
  Qed.
End Built.
