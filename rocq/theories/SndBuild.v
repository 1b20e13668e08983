(** What the construction of the SND scenario does, step by step. *)
From Verif Require Import Base BaseFacts Rng RngFacts Utils UtilsFacts Relationship RelationshipFacts SpecRelationship RelationshipMany RelationshipProps
  Frame Gens GensProps Clock SpecClock ClockProps Attribute AttributeFacts World Story Ops OpsFacts Circus SpecStory StoryFacts StoryNew SpecOps SpecWorld SpecPopulation GensKept PopFacts PopMore SpecSetup SetupProps
  SpecSafe SafeOps Geography SpecGeography GeographyRun GeographyBuild SpecComponents Components ComponentsFacts CdrSetup CdrSubs SpecPrompt PromptProps CdrStories CdrBuild Snd SndSetup.
From Coq Require Import Permutation Lqa.
Local Open Scope nat_scope.

Definition distro_ids (params : snd_params) : list val := map VStr (build_ids (how_many_distributors params) 0 "DISTRIBUTOR_" 1).
Definition dealer_ids (params : snd_params) : list val := map VStr (build_ids (how_many_dealers params) 0 "DEALER_" 3).
Definition snd_agent_ids (params : snd_params) : list val := map VStr (build_ids (how_many_agents params) 0 "AGENT_" 3).
Definition distro_stock (params : snd_params) : list val := map VStr (build_ids (distributor_sims params) 0 "SIM_" 30).
Definition dealer_stock (params : snd_params) : list val := map VStr (build_ids (dealer_sims params) 0 "SIM_" 10).

Record sizes_ok (params : snd_params) : Prop := {
  some_agents : (0 < how_many_agents params)%Z; some_dealers : (0 < how_many_dealers params)%Z; some_distros : (0 < how_many_distributors params)%Z;
  some_dealer_sims : (0 < dealer_sims params)%Z; some_distro_sims : (0 < distributor_sims params)%Z
}.

Lemma ids_some n prefix width : (0 < n)%Z -> map VStr (build_ids n 0 prefix width) <> [].
Proof. intros H X. apply (f_equal (@length val)) in X. rewrite map_length, build_ids_length in X. cbn in X. lia. Qed.
Lemma ids_length n prefix width : length (map VStr (build_ids n 0 prefix width)) = Z.to_nat n.
Proof. now rewrite map_length, build_ids_length. Qed.

Lemma scalar_eq name v l po r w : w_pops w = l ++ po :: r -> p_size po <> 0%Z ->
  create_attribute (length l) name (Some (VScalar v)) None None w =
  (Ok (length (w_attrs w)),
   set_pops (l ++ mkPop (p_ids po) (p_size po) (dset name (length (w_attrs w)) (p_attrs po)) (p_rels po) :: r)
     (set_attrs (w_attrs w ++ [map (fun i => (i, v)) (p_ids po)]) w)).
Proof.
  intros Hp Hn. unfold create_attribute, attr_table, bindM at 1 2, deref. rewrite Hp, nth_mid.
  apply Z.eqb_neq in Hn. rewrite Hn. unfold lift, table_of. unfold bindM, get, modify, put_pop, ret.
  rewrite Hp, nth_mid. cbn -[dset combine set_nth]. rewrite Hp, set_mid. reflexivity.
Qed.

Ltac seed := match goal with |- may _ _ ?W _ => let q := fresh "q" in let sd := fresh "sd" in let E := fresh "E" in destruct (runs_seed W) as (q & sd & E); eapply may_step; [exact E|]; clear E; worlds end.

Lemma population_may G name h x n vs x' w : w_gens w = h ++ [x] -> gen_step x n = Ok (vs, x') -> n <> 0%Z -> NoDup vs -> dmem name (w_pop_names w) = false ->
  may G (create_population name (Some (length h)) (Some n) None) w (fun p w' => p = length (w_pops w) /\
       w' = set_pop_names (dset name (length (w_pops w)) (w_pop_names w)) (set_pops (w_pops w ++ [mkPop vs n [] []]) (set_gens (h ++ [x']) w))).
Proof. intros. eapply may_does; [eapply population_gen_does; eauto|auto]. Qed.

Lemma distributors_may (G : Prop) params pg sd ck : sizes_ok params ->
  may G (create_distributors params) (mkWorld pg sd ck [] [] [] [] [] [] [] [] [])
   (fun r w' => exists assigned rel s sd' g0,
      r = (0, 0, 0, 1) /\ map fst assigned = distro_stock params /\ Forall (fun e => In (snd e) (distro_ids params)) assigned /\
      add_relations (new_relationship pg s) (map snd assigned) (map fst assigned) (WScalar 1) = Ok rel /\
      w' = mkWorld pg sd' ck [map (fun i => (i, vz 0)) (distro_ids params)] [rel] [g0; GSeq (0 + distributor_sims params) "SIM_" 30] [] []
             [mkPop (distro_ids params) (how_many_distributors params) [("SIMS_TO_RESTOCK"%string, 0)] [("SIM"%string, 0)]] [] [("distros"%string, 0)] []).
Proof.
  intros [S1 S2 S3 S4 S5]. match goal with |- may _ _ _ ?X => set (Q := X) end.
  unfold create_distributors. eapply may_step; [reflexivity|]. eapply may_step; [apply alloc_gen_eq|]. worlds. cbn [app length].
  eapply may_bind; [eapply (population_may G "distros" [] (GSeq 0 "DISTRIBUTOR_" 1)); [reflexivity|reflexivity|lia|apply seq_ids_NoDup|reflexivity]|].
  intros p0 w1 (-> & ->). worlds. cbn [app length dset]. fold (distro_ids params).
  match goal with |- may _ (bindM (create_relationship _ _ _) _) ?W _ => edestruct (relationship_eq "SIM" [] _ [] W eq_refl) as (rs2 & rsd2 & Er2) end.
  eapply may_step; [exact Er2|]. clear Er2. worlds. cbn [app length p_ids p_size p_attrs p_rels dset].
  eapply may_step; [apply alloc_gen_eq|]. worlds. cbn [app length].
  eapply may_step; [eapply (leaf_generate _ [_] _ []); [reflexivity|reflexivity]|]. worlds. cbn [app]. fold (distro_stock params).
  eapply may_step; [apply deref_eq; reflexivity|]. cbn [p_size p_ids]. seed.
  destruct (make_random_assign_total (distro_stock params) (distro_ids params) (random_state pg q)) as (assigned & ast & Ea); [left; apply ids_some; exact S3|].
  destruct (make_random_assign_spec _ _ _ _ _ Ea) as [Ha1 Ha2].
  eapply may_step; [unfold lift; rewrite Ea; reflexivity|]. cbv beta iota.
  destruct (add_relations_ok (new_relationship pg rs2) (map snd assigned) (map fst assigned) (WScalar 1)) as (rel & Erel);
    [rewrite !map_length; lia|cbn [weights_list]; now rewrite repeat_length|].
  eapply may_step; [eapply (rel_add_eq _ []); [reflexivity|exact Erel]|]. worlds. cbn [app].
  eapply may_step; [eapply (scalar_eq "SIMS_TO_RESTOCK" _ [] _ []); [reflexivity|cbn [p_size]; lia]|]. worlds. cbn [app length p_ids p_size p_attrs p_rels dset].
  eapply may_eq; [reflexivity|]. unfold Q. eexists assigned, rel, rs2, _, _. repeat (split; [assumption || reflexivity|]). reflexivity.
Qed.

Lemma restock_may (G : Prop) x pg sd ck attrs rels gens dgens tgens dp rest names gnames :
  p_size dp = Z.of_nat (length (p_ids dp)) -> NoDup (p_ids dp) -> (forall l, Permutation (snd_states_order x l) l) ->
  may G (add_distributor_recharge x 0 0 0 1) (mkWorld pg sd ck attrs rels gens dgens tgens (dp :: rest) [] names gnames)
   (fun _ w' => exists gens' tgens' s bk,
      w' = mkWorld pg sd ck attrs rels gens' dgens tgens' (dp :: rest)
            [with_ops s (snd_restock (mkSnd 0 0 0 0 0 0 0 0 0 0 0 0 1 0 0 0 0 (snd_time_format x)) ++ [OpBack 0 bk])] names gnames /\
      length tgens' = S (length tgens) /\ gens_kept gens gens' /\ law gens' bk (GNumpy NpUniform (random_state pg 1234) None) /\
      made s "distributor_restock" "DISTRIBUTOR_ID" (p_ids dp) (length tgens)).
Proof.
  intros Hsz Nd Hord. match goal with |- may _ _ _ ?X => set (Q := X) end.
  unfold add_distributor_recharge. eapply may_step; [apply alloc_gen_eq|]. worlds. eapply may_step; [apply alloc_gen_eq|]. worlds. eapply may_step; [apply alloc_tgen_eq|]. worlds.
  match goal with |- may _ (bindM (create_story _ ?nm ?p ?f ?d ?sts ?t ?a) _) ?W _ =>
    destruct (story_runs (snd_states_order x) nm p f d sts t a W dp (TConst (-1)))
      as (s & gens' & tgens' & Es & K1 & K2 & K3 & M1 & M2 & M3 & M4 & M5 & M6 & _) end; try assumption; try exact I.
  { reflexivity. }
  { worlds. apply nth_mid. }
  { intros st0 ga gb [H|[]]. injection H as <- <- <-. worlds. split; (eapply (law_numeric _ _ (GConst (vz 1))); [exact I|laws]). }
  { intros []. }
  worlds. eapply may_step; [exact Es|]. clear Es. worlds. cbn [app length] in *.
  eapply may_eq; [apply set_operations_eq; worlds; reflexivity|]. worlds. cbn [set_nth].
  unfold Q. eexists _, tgens', s, _. split; [reflexivity|]. split; [rewrite K3; worlds; rewrite app_length; cbn; lia|].
  split.
  { eapply gens_kept_trans; [|apply gens_kept_app]. eapply gens_kept_trans; [|exact K1]. worlds. eapply gens_kept_trans; [|apply gens_kept_app]. apply gens_kept_app. }
  split; [apply law_new|]. repeat split; try assumption; apply M6.
Qed.

Lemma dealers_may (G : Prop) params pg sd ck attrs r0 gens dgens tgens dp stories : sizes_ok params ->
  may G (create_dealers params) (mkWorld pg sd ck attrs [r0] gens dgens tgens [dp] stories [("distros"%string, 0)] [])
   (fun r w' => exists assigned rel1 rel s sd' g,
      r = (1, 1) /\ map fst assigned = dealer_stock params /\ Forall (fun e => In (snd e) (dealer_ids params)) assigned /\
      add_relations (new_relationship pg s) (map snd assigned) (map fst assigned) (WScalar 1) = Ok rel1 /\
      add_relations rel1 [broke_dealer; broke_dealer; broke_dealer] broke_sims (WScalar 1) = Ok rel /\
      w' = mkWorld pg sd' ck attrs [r0; rel] (gens ++ [g]) dgens tgens
             [dp; mkPop (dealer_ids params) (how_many_dealers params) [] [("SIM"%string, 1)]] stories [("distros"%string, 0); ("dealers"%string, 1)] []).
Proof.
  intros [S1 S2 S3 S4 S5]. match goal with |- may _ _ _ ?X => set (Q := X) end.
  unfold create_dealers. eapply may_step; [reflexivity|]. eapply may_step; [apply alloc_gen_eq|]. worlds.
  eapply may_bind; [eapply (population_may G "dealers" gens (GSeq 0 "DEALER_" 3)); [reflexivity|reflexivity|lia|apply seq_ids_NoDup|reflexivity]|].
  intros p0 w1 (-> & ->). worlds. cbn [app length dset keqb]. fold (dealer_ids params).
  match goal with |- may _ (bindM (create_relationship _ _ _) _) ?W _ => edestruct (relationship_eq "SIM" [dp] _ [] W eq_refl) as (rs2 & rsd2 & Er2) end.
  eapply may_step; [exact Er2|]. clear Er2. worlds. cbn [app length p_ids p_size p_attrs p_rels dset].
  cbn zeta. fold (dealer_stock params).
  eapply may_step; [apply deref_eq; reflexivity|]. cbn [p_size p_ids]. seed.
  destruct (make_random_assign_total (dealer_stock params) (dealer_ids params) (random_state pg q)) as (assigned & ast & Ea); [left; apply ids_some; exact S2|].
  destruct (make_random_assign_spec _ _ _ _ _ Ea) as [Ha1 Ha2].
  eapply may_step; [unfold lift; rewrite Ea; reflexivity|]. cbv beta iota.
  destruct (add_relations_ok (new_relationship pg rs2) (map snd assigned) (map fst assigned) (WScalar 1)) as (rel1 & Erel1);
    [rewrite !map_length; lia|cbn [weights_list]; now rewrite repeat_length|].
  eapply may_step; [eapply (rel_add_eq _ [_]); [reflexivity|exact Erel1]|]. worlds. cbn [app].
  destruct (add_relations_ok rel1 [broke_dealer; broke_dealer; broke_dealer] broke_sims (WScalar 1)) as (rel & Erel); [cbn; lia|cbn; lia|].
  eapply may_step; [eapply (rel_add_eq _ [_]); [reflexivity|exact Erel]|]. worlds. cbn [app].
  eapply may_eq; [reflexivity|]. unfold Q. eexists assigned, rel1, rel, rs2, _, _. repeat (split; [assumption || reflexivity|]). reflexivity.
Qed.

Lemma agents_may (G : Prop) x params pg sd ck t0 r0 r1 gens dgens tgens dp lp stories : sizes_ok params ->
  may G (create_agents x params) (mkWorld pg sd ck [t0] [r0; r1] gens dgens tgens [dp; lp] stories [("distros"%string, 0); ("dealers"%string, 1)] [])
   (fun r w' => exists vs s sd' g g',
      r = (2, 2, 1) /\ length vs = length (snd_agent_ids params) /\
      w' = mkWorld pg sd' ck [t0; combine (snd_agent_ids params) vs] [r0; r1; new_relationship pg s] (gens ++ [g; g']) dgens tgens
             [dp; lp; mkPop (snd_agent_ids params) (how_many_agents params) [("AGENT_NAME"%string, 1)] [("SIM"%string, 2)]] stories
             [("distros"%string, 0); ("dealers"%string, 1); ("agents"%string, 2)] []).
Proof.
  intros [S1 S2 S3 S4 S5]. match goal with |- may _ _ _ ?X => set (Q := X) end.
  unfold create_agents. eapply may_step; [apply alloc_gen_eq|]. worlds.
  eapply may_bind; [eapply (population_may G "agents" gens (GSeq 0 "AGENT_" 3)); [reflexivity|reflexivity|lia|apply seq_ids_NoDup|reflexivity]|].
  intros p0 w1 (-> & ->). worlds. cbn [app length dset keqb]. fold (snd_agent_ids params).
  match goal with |- may _ (bindM (create_relationship _ _ _) _) ?W _ => edestruct (relationship_eq "SIM" [dp; lp] _ [] W eq_refl) as (rs2 & rsd2 & Er2) end.
  eapply may_step; [exact Er2|]. clear Er2. worlds. cbn [app length p_ids p_size p_attrs p_rels dset]. seed.
  eapply may_step; [apply alloc_gen_eq|]. worlds.
  assert (La : length (snd_agent_ids params) = Z.to_nat (how_many_agents params)) by apply ids_length.
  eapply may_step.
  { eapply (attribute_eq "AGENT_NAME" _ (GOracle (faker_names x q) 0) _ _ [_; _] _ []); [reflexivity|reflexivity|apply oracle_step|cbn [p_size]; lia|cbn [p_size p_ids]; rewrite map_length, seq_length; lia]. }
  worlds. cbn [app length p_ids p_size p_attrs p_rels dset].
  eapply may_eq; [reflexivity|]. unfold Q. eexists _, rs2, _, _, _. split; [reflexivity|]. split; [|rewrite <- app_assoc; reflexivity].
  rewrite map_length, seq_length. lia.
Qed.

Lemma rel_scalar_eq w l rel froms tos q rel' : w_rels w = l ++ [rel] -> add_relations rel froms tos (WScalar q) = Ok rel' ->
  rel_add_scalar (length l) froms tos q w = (Ok tt, set_rels (l ++ [rel']) w).
Proof. intros Hw H. unfold rel_add_scalar, bindM, deref, lift, put_rel, modify. rewrite Hw, nth_mid, H, Hw, set_mid. reflexivity. Qed.

Definition deg_prob (params : snd_params) : Q := (agent_degree params / inject_Z (how_many_agents params) * inject_Z (how_many_dealers params))%Q.
Definition customers (x : snd_sources) (params : snd_params) (seed : N) : result (list (val * val)) :=
  make_random_bipartite_data (snd_agent_ids params) (dealer_ids params) (deg_prob params)
    (snd_bipartite x seed (length (snd_agent_ids params)) (length (dealer_ids params)) (deg_prob params)).

Lemma customers_may (G : Prop) x params pg sd ck attrs r0 r1 r2 gens dgens tgens dp lp ap stories names : sizes_ok params ->
  p_ids lp = dealer_ids params -> p_ids ap = snd_agent_ids params -> p_rels ap = [("SIM"%string, 2)] -> (forall n, 0 < snd_exponential x n)%Qc ->
  (G -> forall seed, exists df, customers x params seed = Ok df) ->
  may G (connect_agents x params 2 1) (mkWorld pg sd ck attrs [r0; r1; r2] gens dgens tgens [dp; lp; ap] stories names [])
   (fun r w' => exists rel sd' g,
      r = 3 /\ between rel (snd_agent_ids params) (broke_dealer :: dealer_ids params) /\ (forall a, In a (snd_agent_ids params) -> related rel a broke_dealer) /\
      w' = mkWorld pg sd' ck attrs [r0; r1; r2; rel] (gens ++ [g]) dgens tgens
             [dp; lp; mkPop (snd_agent_ids params) (p_size ap) (p_attrs ap) [("SIM"%string, 2); ("DEALERS"%string, 3)]] stories names []).
Proof.
  intros [S1 S2 S3 S4 S5] El Ea Er Hpos Hg. match goal with |- may _ _ _ ?X => set (Q := X) end.
  unfold connect_agents. eapply may_step; [reflexivity|]. cbn zeta. eapply may_step; [apply alloc_gen_eq|]. worlds.
  eapply may_step; [apply deref_eq; reflexivity|]. eapply may_step; [apply deref_eq; reflexivity|]. seed. rewrite El, Ea. fold (deg_prob params). fold (customers x params q).
  eapply may_bind; [apply may_lift; intros HG; apply (Hg HG)|]. intros df w1 (Egr & ->).
  match goal with |- may _ (bindM (create_relationship _ _ _) _) ?W _ => edestruct (relationship_eq "DEALERS" [dp; lp] _ [] W eq_refl) as (rs2 & rsd2 & Er2) end.
  eapply may_step; [exact Er2|]. clear Er2. worlds. cbn [app length p_ids p_size p_attrs p_rels dset]. rewrite Er, Ea. cbn [dset keqb].
  destruct (other_step (snd_exponential x) (random_state pg 1) (Z.of_nat (length df))) as (ws & hst & Hh1 & Hh2 & Hh3); [lia|].
  eapply may_step; [eapply (leaf_generate _ gens _ []); [reflexivity|exact Hh3]|]. worlds.
  destruct (numbers_ok ws) as (rs & Ers & Lrs). { eapply Forall_impl; [|exact Hh2]. cbn. intros v (n & ->). eauto. }
  destruct (add_relations_ok (new_relationship pg rs2) (map fst df) (map snd df) (WArray rs)) as (rel1 & Erel1);
    [rewrite !map_length; lia|cbn [weights_list]; rewrite map_length; lia|].
  destruct (new_between pg rs2 df (snd_exponential x) ws rs rel1 _ _ Hpos Hh2 Ers (bipartite_spec _ _ _ _ _ Egr) ltac:(lia) Erel1) as [Bt _].
  eapply may_step.
  { unfold rel_add_weighted, bindM, deref, lift, put_rel, modify. worlds. cbn [nth_error]. rewrite Ers, Erel1. worlds. cbn [set_nth]. reflexivity. }
  worlds.
  destruct (add_relations_ok rel1 (snd_agent_ids params) (map (fun _ => broke_dealer) (snd_agent_ids params)) (WScalar 4)) as (rel & Erel);
    [rewrite map_length; lia|cbn [weights_list]; now rewrite repeat_length|].
  eapply may_step; [eapply (rel_scalar_eq _ [_; _; _]); [reflexivity|exact Erel]|]. worlds. cbn [app].
  destruct Bt as [R1 B1]. assert (R : reachable rel) by (eapply reach_add; [exact R1|exact Erel]).
  pose proof (add_exact _ _ _ _ _ R1 Erel) as P. cbn [weights_list] in P.
  eapply may_eq; [reflexivity|]. unfold Q. eexists rel, _, _. split; [reflexivity|]. split; [|split; [|reflexivity]].
  - split; [exact R|]. intros f t qq H. apply (Permutation_in _ P) in H. apply in_app_iff in H as [H|H].
    + apply B1 in H as (H1 & H2 & H3). split; [exact H1|]. split; [now right|exact H3].
    + apply lines3_pos in H as [H1 H2]. apply repeat_spec in H2. subst qq. split; [eapply in_combine_l; exact H1|]. split; [|lra].
      apply in_combine_r in H1. apply in_map_iff in H1 as (a & <- & _). now left.
  - intros a H. exists 4%Q. apply (Permutation_in _ (Permutation_sym P)). apply in_app_iff. right. clear -H.
    induction (snd_agent_ids params) as [|b l IH]; [destruct H|]. cbn. destruct H as [->|H]; [now left|]. right. apply IH. exact H.
Qed.

Lemma pareto_int_step xmin lomax st n : exists xs st', length xs = n /\
  gen_step (GPareto xmin true lomax st) (Z.of_nat n) = Ok (map (fun x => vz (trunc_Q (this ((lomax x + 1) * xmin)%Qc))) xs, GPareto xmin true lomax st').
Proof.
  cbn [gen_step]. rewrite (proj2 (Z.ltb_ge _ _)) by lia. rewrite Nat2Z.id. destruct (draws next_raw n st) as [xs st'] eqn:E. exists xs, st'.
  split; [eapply draws_length; exact E|]. rewrite map_map. reflexivity.
Qed.
Lemma trunc_least q (m : Z) : (0 <= m)%Z -> (inject_Z m <= q)%Q -> (m <= trunc_Q q)%Z.
Proof. intros Hm H. unfold trunc_Q. destruct q as [a b]. unfold Qle in H. cbn in *. apply Z.quot_le_lower_bound; lia. Qed.
Lemma bulk_count (l : Qc) : (0 <= l)%Qc -> exists z, (500 <= z)%Z /\ vz (trunc_Q (this ((l + 1) * Q2Qc 500)%Qc)) = vz z.
Proof.
  intros H. eexists. split; [|reflexivity]. apply trunc_least; [lia|]. pose proof (scaled l 500) as E. rewrite E. unfold Qcle in H. cbn in H. change (inject_Z 500) with 500%Q. nra.
Qed.

Lemma suppliers_may (G : Prop) x params pg sd ck t0 t1 r0 r1 r2 r3 gens dgens tgens dp lp rest stories names : sizes_ok params ->
  p_ids dp = distro_ids params -> p_ids lp = dealer_ids params -> p_size lp = how_many_dealers params -> p_rels lp = [("SIM"%string, 1)] -> p_attrs lp = [] ->
  (forall n, 0 <= snd_lomax_1_5 x n)%Qc ->
  may G (connect_dealers x 1 0) (mkWorld pg sd ck [t0; t1] [r0; r1; r2; r3] gens dgens tgens (dp :: lp :: rest) stories names [])
   (fun r w' => exists rel s assigned sd' g vs,
      r = (4, 2) /\ length assigned = length (dealer_ids params) /\ incl assigned (distro_ids params) /\
      add_relations (new_relationship pg s) (dealer_ids params) assigned (WScalar 1) = Ok rel /\
      length vs = length (dealer_ids params) /\ (forall v, In v vs -> exists z, (500 <= z)%Z /\ v = vz z) /\
      w' = mkWorld pg sd' ck [t0; t1; combine (dealer_ids params) vs] [r0; r1; r2; r3; rel] (gens ++ [g]) dgens tgens
             (dp :: mkPop (dealer_ids params) (how_many_dealers params) [("BULK_BUY_SIZE"%string, 2)] [("SIM"%string, 1); ("DISTRIBUTOR"%string, 4)] :: rest) stories names []).
Proof.
  intros [S1 S2 S3 S4 S5] Ed El Es Er Et Hpos. match goal with |- may _ _ _ ?X => set (Q := X) end.
  unfold connect_dealers. eapply may_step; [reflexivity|].
  match goal with |- may _ (bindM (create_relationship _ _ _) _) ?W _ => edestruct (relationship_eq "DISTRIBUTOR" [dp] _ _ W eq_refl) as (rs2 & rsd2 & Er2) end.
  eapply may_step; [exact Er2|]. clear Er2. worlds. cbn [app length p_ids p_size p_attrs p_rels dset]. rewrite Er, El, Es, Et. cbn [dset keqb]. seed.
  eapply may_step; [apply deref_eq; reflexivity|]. eapply may_step; [apply deref_eq; reflexivity|]. cbn [p_size p_ids]. rewrite Ed.
  assert (Ld : length (dealer_ids params) = Z.to_nat (how_many_dealers params)) by apply ids_length.
  destruct (choice (length (distro_ids params)) (Z.to_nat (how_many_dealers params)) (random_state pg q)) as [[idx st']|e] eqn:Ec.
  2:{ unfold choice in Ec. destruct (Nat.eqb_spec (length (distro_ids params)) 0) as [X|X]; [|discriminate]. apply length_zero_iff_nil in X. exfalso. revert X. apply ids_some. exact S3. }
  destruct (choice_spec _ _ _ _ _ Ec) as [Lc Fc]. destruct (take_ok idx (distro_ids params) Fc) as (assigned & Etk).
  eapply may_step; [reflexivity|]. cbv beta iota. eapply may_step; [unfold lift; rewrite Etk; reflexivity|].
  assert (Las : length assigned = length (dealer_ids params)) by (rewrite (take_length _ _ _ Etk); lia).
  destruct (add_relations_ok (new_relationship pg rs2) (dealer_ids params) assigned (WScalar 1)) as (rel & Erel); [lia|cbn [weights_list]; now rewrite repeat_length|].
  eapply may_step; [eapply (rel_add_eq _ [_; _; _; _]); [reflexivity|exact Erel]|]. worlds. cbn [app]. seed.
  eapply may_step; [apply alloc_gen_eq|]. worlds.
  destruct (pareto_int_step (Q2Qc 500) (snd_lomax_1_5 x) (random_state pg q0) (length (dealer_ids params))) as (xs & st2 & Lx & Ep).
  eapply may_step.
  { eapply (attribute_eq "BULK_BUY_SIZE" _ (GPareto (Q2Qc 500) true (snd_lomax_1_5 x) (random_state pg q0)) _ _ [_] _ rest); [reflexivity|reflexivity|cbn [p_size]; replace (how_many_dealers params) with (Z.of_nat (length (dealer_ids params))) by lia; exact Ep|cbn [p_size]; lia|cbn [p_ids]; rewrite map_length; lia]. }
  worlds. cbn [app length p_ids p_size p_attrs p_rels dset].
  eapply may_eq; [reflexivity|]. unfold Q. eexists rel, rs2, assigned, _, _, _. split; [reflexivity|]. split; [exact Las|]. split; [intros v Hv; eapply take_In; eauto|]. split; [exact Erel|].
  split; [|split; [|reflexivity]].
  - rewrite map_length. exact Lx.
  - intros v Hv. apply in_map_iff in Hv as (y & <- & _). apply bulk_count. apply Hpos.
Qed.

Lemma placed_eq a w : placed a a w = (Ok tt, w).
Proof. unfold placed. rewrite Nat.eqb_refl. reflexivity. Qed.
Lemma get_story_eq name a w : find_story name (w_stories w) 0 = Some a -> get_story_at name a w = (Ok tt, w).
Proof. intros H. unfold get_story_at, bindM, get. rewrite H, Nat.eqb_refl. reflexivity. Qed.

Lemma one_two_three_law st : number_law (GNumpy (NpChoice one_two_three None) st None).
Proof. split; [discriminate|]. repeat constructor; eexists; reflexivity. Qed.

Ltac kept := repeat first [apply gens_kept_refl | apply gens_kept_app | eapply gens_kept_trans; [|apply gens_kept_app]].

(** Members whose parameters in a state come from constants have these constants. *)
Lemma drawn_kept size gens gs gens' : drawn size gens gs gens' -> gens_kept gens gens'.
Proof.
  induction 1 as [gens|gens g vs gens1 gs gens2 G _ IH]; [apply gens_kept_refl|]. eapply gens_kept_trans; [|exact IH]. unfold gen_generate in G. exact (heap_generate_kept _ _ _ _ _ _ G).
Qed.
Lemma const_given h g size q qs h' : law h g (GConst (VNum q)) -> gives h g size qs h' -> (forall x, In x qs -> x = this q) /\ gens_kept h h'.
Proof.
  intros (y & E & S) (vs & G & F). destruct y; try contradiction. cbn in S. subst v. split; [|unfold gen_generate in G; exact (heap_generate_kept _ _ _ _ _ _ G)].
  destruct (nth_error_split _ _ E) as (h1 & h2 & -> & <-). pose proof (leaf_gen h1 (GConst (VNum q)) h2 size (repeat (VNum q) (Z.to_nat size)) (GConst (VNum q)) eq_refl) as G'.
  rewrite G in G'. injection G' as -> _. intros x Hx. revert x Hx. generalize dependent qs. generalize (Z.to_nat size) as n.
  induction n as [|n IH]; intros qs F; inversion F as [|v0 q0 vs0 qs0 H1 H2]; subst; intros x Hx; [destruct Hx|]. destruct Hx as [<-|Hx]; [cbn in H1; congruence|exact (IH _ H2 _ Hx)].
Qed.
Lemma constant_params order name p f default states t auto w a w' po st ga gp qa qp :
  create_story order name p f default states t auto w = (Ok a, w') -> (forall l, Permutation (order l) l) ->
  match states with Some d => NoDup (dkeys d) | None => True end -> nth_error (w_pops w) p = Some po -> NoDup (p_ids po) ->
  In (st, (ga, gp)) (all_states default states) -> law (w_gens w) ga (GConst (VNum qa)) -> law (w_gens w) gp (GConst (VNum qp)) ->
  forall s, nth_error (w_stories w') a = Some s -> st_auto s = auto /\
  forall i q, In i (p_ids po) -> (activity_in s i st q -> q = this qa) /\ (back_probability_in s i st q -> q = this qp).
Proof.
  intros H Ho Hd Hp Nd Hin La Lp s Es. split.
  - destruct (created _ _ _ _ _ _ _ _ _ _ _ H Ho) as (po' & s' & _ & _ & _ & E & _ & _ & A & _). rewrite Es in E. now injection E as <-.
  - intros i q Hi. destruct (created_params _ _ _ _ _ _ _ _ _ _ _ _ H Ho Hd Hp Nd _ _ _ Hin) as (s' & before & acts & probs & later & g1 & g2 & g3 & E & _ & D & G1 & G2 & _ & _ & _ & K).
    rewrite Es in E. injection E as <-. destruct (const_given _ _ _ _ _ _ (law_kept _ _ _ _ (drawn_kept _ _ _ _ D) La) G1) as [V1 K1].
    destruct (const_given _ _ _ _ _ _ (law_kept _ _ _ _ K1 (law_kept _ _ _ _ (drawn_kept _ _ _ _ D) Lp)) G2) as [V2 _].
    destruct (In_nth_error _ _ Hi) as (k & Hk). destruct (K k i Hk q) as [A B]. split; intros X; [apply V1|apply V2]; eapply nth_error_In; [apply A|apply B]; exact X.
Qed.
(** What the purchases story declares for agents on holidays. *)
Definition resting (s : story) (agents : list val) : Prop :=
  st_auto s = true /\ forall i q, In i agents -> (activity_in s i "on_holiday" q -> q == 0)%Q /\ (back_probability_in s i "on_holiday" q -> q == 0)%Q.

Lemma purchases_may (G : Prop) x pg sd ck attrs rels gens dgens tgens dp lp ap rest s0 names :
  p_size ap = Z.of_nat (length (p_ids ap)) -> NoDup (p_ids ap) -> (forall l, Permutation (snd_states_order x l) l) -> st_name s0 = "distributor_restock"%string ->
  (G -> can_start high_week_days_profile ck) ->
  may G (add_purchases x 2 2 1 3) (mkWorld pg sd ck attrs rels gens dgens tgens (dp :: lp :: ap :: rest) [s0] names [])
   (fun _ w' => exists sd' gens' tgens' s bk,
      w' = mkWorld pg sd' (register_listener ck (length tgens)) attrs rels gens' dgens tgens' (dp :: lp :: ap :: rest)
            [s0; with_ops s (snd_purchases (mkSnd 0 0 2 0 0 1 2 3 0 0 0 0 0 0 0 0 0 (snd_time_format x)) ++ [OpBack 1 bk])] names [] /\
      length tgens' = S (length tgens) /\ gens_kept gens gens' /\ law gens' bk (GNumpy NpUniform (random_state pg 1234) None) /\
      made s "purchases" "AGENT" (p_ids ap) (length tgens) /\ In "on_holiday"%string (st_states s) /\ resting s (p_ids ap)).
Proof.
  intros Hsz Nd Hord Hn Hstart. match goal with |- may _ _ _ ?X => set (Q := X) end.
  unfold add_purchases. eapply may_step; [reflexivity|]. worlds.
  eapply may_bind; [eapply may_does; [apply alloc_cyclic_does|exact Hstart]|]. worlds. intros t w1 (sd2 & st & y & -> & _ & ->). worlds. seed.
  eapply may_step; [apply alloc_gen_eq|]. worlds. eapply may_step; [apply alloc_gen_eq|]. worlds. eapply may_step; [apply alloc_gen_eq|]. worlds. eapply may_step; [apply alloc_gen_eq|]. worlds.
  match goal with |- may _ (bindM (create_story _ ?nm ?p ?f ?d ?sts ?t ?a) _) ?W _ =>
    destruct (story_runs (snd_states_order x) nm p f d sts t a W ap (TCyclic y))
      as (s & gens' & tgens' & Es & K1 & K2 & K3 & M1 & M2 & M3 & M4 & M5 & M6 & M7 & _) end; try assumption; try exact I.
  { split; [constructor; [intros []|constructor]|]. cbn. intros [X|[]]. discriminate. }
  { reflexivity. }
  { worlds. apply nth_mid. }
  { worlds. intros st0 ga gb [H|[H|[]]]; injection H as <- <- <-; split; (eapply law_numeric; [|laws]); first [exact I|apply one_two_three_law]. }
  { cbn. intros [X|[]]. rewrite Hn in X. discriminate. }
  assert (Rs : resting s (p_ids ap)).
  { match type of Es with create_story ?o ?nm ?p ?f ?d (Some [(_, (?ga, ?gb))]) ?t ?a ?W = (_, ?W') =>
      destruct (constant_params o nm p f d (Some [("on_holiday"%string, (ga, gb))]) t a W 1 W' ap "on_holiday"%string ga gb (Q2Qc (inject_Z 0)) (Q2Qc (inject_Z 0)) Es Hord) with (s := s) as [A B] end.
    - constructor; [intros []|constructor].
    - reflexivity.
    - exact Nd.
    - right. now left.
    - worlds. laws.
    - worlds. laws.
    - reflexivity.
    - split; [exact A|]. intros i q0 Hi. destruct (B i q0 Hi) as [B1 B2]. split; intros X; [rewrite (B1 X)|rewrite (B2 X)]; reflexivity. }
  worlds. eapply may_step; [exact Es|]. clear Es. worlds. cbn [app length] in *.
  eapply may_step; [apply (placed_eq 1)|].
  eapply may_eq; [apply set_operations_eq; worlds; reflexivity|]. worlds. cbn [set_nth].
  unfold Q. eexists _, _, tgens', s, _. split; [reflexivity|]. split; [rewrite K3; worlds; rewrite app_length; cbn; lia|].
  split.
  { eapply gens_kept_trans; [|apply gens_kept_app]. eapply gens_kept_trans; [|exact K1]. worlds. kept. }
  split; [apply law_new|]. split; [repeat split; try assumption; apply M6|]. split; [apply M7; right; now left|exact Rs].
Qed.

Lemma bulk_may (G : Prop) x pg sd ck attrs rels gens dgens tgens dp lp rest s0 s1 names :
  p_size lp = Z.of_nat (length (p_ids lp)) -> NoDup (p_ids lp) -> (forall l, Permutation (snd_states_order x l) l) -> st_name s0 = "distributor_restock"%string -> st_name s1 = "purchases"%string ->
  (G -> can_start high_week_days_profile ck) ->
  may G (add_bulk_purchases x 1 0 0 1 4 0) (mkWorld pg sd ck attrs rels gens dgens tgens (dp :: lp :: rest) [s0; s1] names [])
   (fun _ w' => exists sd' gens' tgens' s bk,
      w' = mkWorld pg sd' (register_listener ck (length tgens)) attrs rels gens' dgens tgens' (dp :: lp :: rest)
            [s0; s1; with_ops s (snd_bulk_purchases (mkSnd 0 1 0 0 0 1 0 0 4 0 0 0 0 0 0 0 0 (snd_time_format x)) ++ [OpBack 2 bk])] names [] /\
      length tgens' = S (length tgens) /\ gens_kept gens gens' /\ law gens' bk (GNumpy NpUniform (random_state pg 1234) None) /\
      made s "bulk_purchases" "DEALER_ID" (p_ids lp) (length tgens)).
Proof.
  intros Hsz Nd Hord Hn0 Hn1 Hstart. match goal with |- may _ _ _ ?X => set (Q := X) end.
  unfold add_bulk_purchases.
  eapply may_bind; [eapply may_does; [apply alloc_cyclic_does|exact Hstart]|]. worlds. intros t w1 (sd2 & st & y & -> & _ & ->). worlds.
  eapply may_step; [apply alloc_gen_eq|]. worlds. eapply may_step; [apply alloc_gen_eq|]. worlds.
  match goal with |- may _ (bindM (create_story _ ?nm ?p ?f ?d ?sts ?t ?a) _) ?W _ =>
    destruct (story_runs (snd_states_order x) nm p f d sts t a W lp (TCyclic y))
      as (s & gens' & tgens' & Es & K1 & K2 & K3 & M1 & M2 & M3 & M4 & M5 & M6 & M7 & _) end; try assumption; try exact I.
  { reflexivity. }
  { worlds. apply nth_mid. }
  { worlds. intros st0 ga gb [H|[]]; injection H as <- <- <-; split; (eapply law_numeric; [|laws]); exact I. }
  { cbn. intros [X|[X|[]]]; rewrite ?Hn0, ?Hn1 in X; discriminate. }
  worlds. eapply may_step; [exact Es|]. clear Es. worlds. cbn [app length] in *.
  eapply may_step; [apply (placed_eq 2)|]. eapply may_step; [apply get_story_eq; worlds; cbn [find_story]; rewrite Hn0; reflexivity|].
  eapply may_eq; [apply set_operations_eq; worlds; reflexivity|]. worlds. cbn [set_nth].
  unfold Q. eexists _, _, tgens', s, _. split; [reflexivity|]. split; [rewrite K3; worlds; rewrite app_length; cbn; lia|].
  split.
  { eapply gens_kept_trans; [|apply gens_kept_app]. eapply gens_kept_trans; [|exact K1]. worlds. kept. }
  split; [apply law_new|]. repeat split; try assumption; apply M6.
Qed.

Lemma holidays_may (G : Prop) x pg sd ck attrs rels gens dgens tgens dp lp ap rest s0 s1 s2 names :
  p_size ap = Z.of_nat (length (p_ids ap)) -> NoDup (p_ids ap) -> (forall l, Permutation (snd_states_order x l) l) ->
  st_name s0 = "distributor_restock"%string -> st_name s1 = "purchases"%string -> st_name s2 = "bulk_purchases"%string ->
  (G -> can_start high_week_days_profile ck) ->
  may G (add_holidays x 2) (mkWorld pg sd ck attrs rels gens dgens tgens (dp :: lp :: ap :: rest) [s0; s1; s2] names [])
   (fun r w' => exists sd' gens' tgens' s3 s4 b3 b4 going returning,
      r = (going, returning) /\
      w' = mkWorld pg sd' (register_listener ck (length tgens)) attrs rels gens' dgens tgens' (dp :: lp :: ap :: rest)
            [s0; s1; s2; with_ops s3 (snd_start_holidays (mkSnd 0 0 2 0 0 0 0 0 0 0 0 0 0 0 0 going 0 (snd_time_format x)) ++ [OpBack 3 b3]);
             with_ops s4 (snd_stops_holidays (mkSnd 0 0 2 0 0 0 0 0 0 0 0 0 0 0 0 0 returning (snd_time_format x)) ++ [OpBack 4 b4])] names [] /\
      length tgens' = S (length tgens) /\ gens_kept gens gens' /\
      law gens' b3 (GNumpy NpUniform (random_state pg 1234) None) /\ law gens' b4 (GNumpy NpUniform (random_state pg 1234) None) /\
      law gens' going (GConst (VStr "going")) /\ law gens' returning (GConst (VStr "returning")) /\
      made s3 "agent_start_holidays" "AGENT" (p_ids ap) (length tgens) /\ made s4 "agent_stops_holidays" "AGENT" (p_ids ap) (length tgens)).
Proof.
  intros Hsz Nd Hord Hn0 Hn1 Hn2 Hstart. match goal with |- may _ _ _ ?X => set (Q := X) end.
  unfold add_holidays. eapply may_step; [reflexivity|]. worlds.
  eapply may_bind; [eapply may_does; [apply alloc_cyclic_does|exact Hstart]|]. worlds. intros t w1 (sd2 & st & y & -> & _ & ->). worlds. seed.
  eapply may_step; [apply alloc_gen_eq|]. worlds. seed. eapply may_step; [apply alloc_gen_eq|]. worlds. eapply may_step; [apply alloc_gen_eq|]. worlds.
  match goal with |- may _ (bindM (create_story _ ?nm ?p ?f ?d ?sts ?t ?a) _) ?W _ =>
    assert (Lend : law (w_gens W) (length (gens ++ [GPareto (Q2Qc (1#4)) false (snd_lomax_1_2 x) (random_state pg q)])) (GPareto (Q2Qc 150) false (snd_lomax_1_2 x) (random_state pg q0))) by (worlds; laws);
    destruct (story_runs (snd_states_order x) nm p f d sts t a W ap (TCyclic y))
      as (s3 & gens1 & tgens1 & Es & K1 & K2 & K3 & M1 & M2 & M3 & M4 & M5 & M6 & M7 & _) end; try assumption; try exact I.
  { reflexivity. }
  { worlds. apply nth_mid. }
  { worlds. intros st0 ga gb [H|[]]; injection H as <- <- <-; split; (eapply law_numeric; [|laws]); exact I. }
  { cbn. intros [X|[X|[X|[]]]]; rewrite ?Hn0, ?Hn1, ?Hn2 in X; discriminate. }
  worlds. eapply may_step; [exact Es|]. clear Es. worlds. cbn [app length w_gens w_tgens] in *.
  eapply may_step; [apply (placed_eq 3)|]. eapply may_step; [apply alloc_gen_eq|]. worlds.
  assert (Hg1 : exists g1, nth_error tgens1 (length tgens) = Some g1).
  { destruct (nth_error tgens1 (length tgens)) as [g1|] eqn:Eg; [eauto|]. apply nth_error_None in Eg. rewrite K3, app_length in Eg. cbn in Eg. lia. }
  destruct Hg1 as (g1 & Hg1).
  match goal with |- may _ (bindM (create_story _ ?nm ?p ?f ?d ?sts ?t ?a) _) ?W _ =>
    destruct (story_runs (snd_states_order x) nm p f d sts t a W ap g1)
      as (s4 & gens2 & tgens2 & Es & J1 & J2 & J3 & N1 & N2 & N3 & N4 & N5 & N6 & N7 & _) end; try assumption; try exact I.
  { reflexivity. }
  { worlds. intros st0 ga gb [H|[]]; injection H as <- <- <-; split.
    - eapply law_numeric; [|eapply law_kept; [apply gens_kept_app|]; eapply law_kept; [exact K1|exact Lend]]. exact I.
    - eapply (law_numeric _ _ (GConst (vz 1))); [exact I|apply law_new]. }
  { worlds. cbn. intros [X|[X|[X|[X|[]]]]]; rewrite ?Hn0, ?Hn1, ?Hn2, ?M1 in X; discriminate. }
  worlds. eapply may_step; [exact Es|]. clear Es. worlds. cbn [app length w_gens w_tgens] in *.
  eapply may_step; [apply (placed_eq 4)|]. eapply may_step; [apply get_story_eq; worlds; cbn [find_story]; rewrite Hn0, Hn1; reflexivity|].
  eapply may_step; [apply alloc_gen_eq|]. worlds.
  eapply may_step; [apply set_operations_eq; worlds; reflexivity|]. worlds. cbn [set_nth].
  eapply may_step; [apply alloc_gen_eq|]. worlds.
  eapply may_step; [apply set_operations_eq; worlds; reflexivity|]. worlds. cbn [set_nth].
  eapply may_eq; [reflexivity|].
  unfold Q. eexists _, _, tgens2, s3, s4, _, _, _, _. split; [reflexivity|]. split; [reflexivity|]. split; [rewrite J3; worlds; rewrite K3, app_length; cbn; lia|].
  split.
  { do 4 (eapply gens_kept_trans; [|apply gens_kept_app]). eapply gens_kept_trans; [|exact J1]. eapply gens_kept_trans; [|apply gens_kept_app]. eapply gens_kept_trans; [|exact K1]. worlds. kept. }
  split; [laws|]. split; [laws|]. split; [laws|]. split; [laws|].
  split; repeat split; try assumption; first [apply M6|apply N6].
Qed.

Lemma no_values_eq name l po r w : w_pops w = l ++ po :: r -> p_size po = 0%Z ->
  create_attribute (length l) name None None None w =
  (Ok (length (w_attrs w)),
   set_pops (l ++ mkPop (p_ids po) (p_size po) (dset name (length (w_attrs w)) (p_attrs po)) (p_rels po) :: r)
     (set_attrs (w_attrs w ++ [[]]) w)).
Proof.
  intros Hp Hn. unfold create_attribute, attr_table, bindM at 1 2, deref. rewrite Hp, nth_mid.
  rewrite Hn. cbn [Z.eqb]. unfold bindM, get, modify, put_pop, ret.
  rewrite Hp, nth_mid. cbn -[dset combine set_nth]. rewrite Hp, set_mid, Hn. reflexivity.
Qed.
Lemma empty_population name w : dmem name (w_pop_names w) = false ->
  create_population name None (Some 0%Z) None w = (Ok (length (w_pops w)), set_pop_names (dset name (length (w_pops w)) (w_pop_names w)) (set_pops (w_pops w ++ [mkPop [] 0 [] []]) w)).
Proof. intros H. unfold create_population, bindM at 1, get at 1. rewrite H. reflexivity. Qed.

Lemma reviews_may (G : Prop) x pg sd ck t0 t1 t2 rels gens dgens tgens dp lp ap s0 s1 s2 s3 s4 names :
  p_size ap = Z.of_nat (length (p_ids ap)) -> NoDup (p_ids ap) -> (forall l, Permutation (snd_states_order x l) l) -> dmem "rev"%string names = false ->
  map st_name [s0; s1; s2; s3; s4] = ["distributor_restock"; "purchases"; "bulk_purchases"; "agent_start_holidays"; "agent_stops_holidays"]%string ->
  (G -> can_start high_week_days_profile ck) ->
  may G (add_reviews x 2) (mkWorld pg sd ck [t0; t1; t2] rels gens dgens tgens [dp; lp; ap] [s0; s1; s2; s3; s4] names [])
   (fun r w' => exists sd' gens' tgens' s5 b5 ids texts seed,
      r = (3, ids, texts) /\
      w' = mkWorld pg sd' (register_listener ck (length tgens)) [t0; t1; t2; []; []; []; []] rels gens' dgens tgens'
            [dp; lp; ap; mkPop [] 0 [("DATE"%string, 3); ("TEXT"%string, 4); ("AGENT_ID"%string, 5); ("AGENT_NAME"%string, 6)] []]
            [s0; s1; s2; s3; s4; with_ops s5 (snd_reviews (mkSnd 0 0 2 3 0 0 0 0 0 0 0 0 0 ids texts 0 0 (snd_time_format x)) ++ [OpBack 5 b5])] (dset "rev"%string 3 names) [] /\
      length tgens' = S (length tgens) /\ gens_kept gens gens' /\
      law gens' b5 (GNumpy NpUniform (random_state pg 1234) None) /\ nth_error gens' ids = Some (GSeq 0 "REVIEW_ID" 10) /\ law gens' texts (GOracle (faker_texts x seed) 0) /\
      length gens < ids /\ made s5 "agent_reviews" "AGENT" (p_ids ap) (length tgens)).
Proof.
  intros Hsz Nd Hord Hrev Hnames Hstart. match goal with |- may _ _ _ ?X => set (Q := X) end.
  unfold add_reviews. eapply may_step; [reflexivity|]. worlds.
  eapply may_bind; [eapply may_does; [apply alloc_cyclic_does|exact Hstart]|]. worlds. intros t w1 (sd2 & st & y & -> & _ & ->). worlds. seed.
  eapply may_step; [apply alloc_gen_eq|]. worlds.
  eapply may_step; [apply empty_population; exact Hrev|]. worlds. cbn [app length].
  eapply may_step; [eapply (no_values_eq "DATE" [_; _; _] _ []); reflexivity|]. worlds. cbn [app length p_ids p_size p_attrs p_rels dset keqb].
  eapply may_step; [eapply (no_values_eq "TEXT" [_; _; _] _ []); reflexivity|]. worlds. cbn [app length p_ids p_size p_attrs p_rels dset keqb].
  eapply may_step; [eapply (no_values_eq "AGENT_ID" [_; _; _] _ []); reflexivity|]. worlds. cbn [app length p_ids p_size p_attrs p_rels dset keqb].
  eapply may_step; [eapply (no_values_eq "AGENT_NAME" [_; _; _] _ []); reflexivity|]. worlds. cbn [app length p_ids p_size p_attrs p_rels dset keqb].
  eapply may_step; [apply alloc_gen_eq|]. worlds.
  match goal with |- may _ (bindM (create_story _ ?nm ?p ?f ?d ?sts ?t ?a) _) ?W _ =>
    destruct (story_runs (snd_states_order x) nm p f d sts t a W ap (TCyclic y))
      as (s5 & gens1 & tgens1 & Es & K1 & K2 & K3 & M1 & M2 & M3 & M4 & M5 & M6 & M7 & _) end; try assumption; try exact I.
  { reflexivity. }
  { worlds. apply nth_mid. }
  { worlds. intros st0 ga gb [H|[]]; injection H as <- <- <-; split; (eapply law_numeric; [|laws]); first [exact I|apply one_two_three_law]. }
  { worlds. rewrite Hnames. cbn. intros [X|[X|[X|[X|[X|[]]]]]]; discriminate. }
  worlds. eapply may_step; [exact Es|]. clear Es. worlds. cbn [app length w_gens w_tgens] in *.
  eapply may_step; [apply (placed_eq 5)|].
  eapply may_step; [apply alloc_gen_eq|]. worlds. seed. eapply may_step; [apply alloc_gen_eq|]. worlds.
  eapply may_step; [apply set_operations_eq; worlds; reflexivity|]. worlds. cbn [set_nth].
  eapply may_eq; [reflexivity|].
  unfold Q. eexists _, _, tgens1, s5, _, _, _, q0. split; [reflexivity|]. split; [reflexivity|]. split; [rewrite K3; worlds; rewrite app_length; cbn; lia|].
  split.
  { do 3 (eapply gens_kept_trans; [|apply gens_kept_app]). eapply gens_kept_trans; [|exact K1]. worlds. kept. }
  split; [laws|]. split; [rewrite <- !app_assoc; apply nth_mid|]. split; [laws|]. split; [rewrite K2; worlds; rewrite !app_length; cbn; lia|].
  repeat split; try assumption; apply M6.
Qed.
