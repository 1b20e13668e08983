(** What the construction of the subscribers and SIMs of the CDR scenario does. *)
From Verif Require Import Base BaseFacts Rng RngFacts Utils UtilsFacts Relationship RelationshipFacts SpecRelationship RelationshipProps
  Frame Gens GensProps Clock SpecClock ClockProps Attribute AttributeFacts World Story Ops Circus SpecStory PopMore Geography SpecWorld GeographyRun GeographyBuild
  Components ComponentsFacts Cdr CdrSetup CdrChoice.
From Coq Require Import Permutation Lqa.
Local Open Scope nat_scope.

Definition subs_ids (params : cdr_params) : list val := map VStr (build_ids (n_subscribers params) 0 "SUBS_" 10).
Definition sims_ids (m : nat) : list val := map VStr (build_ids (Z.of_nat m) 0 "SIMS_" 10).
Definition agent_ids (params : cdr_params) : list val := map VStr (build_ids (n_agents params) 0 "AGENT_" 3).

Lemma does_lift {A} (res : result A) w : does (lift res) w (exists a, res = Ok a) (fun a w' => res = Ok a /\ w' = w).
Proof.
  unfold does, lift. destruct res as [a|e]; [left; split; [eauto|]; exists a, w; auto|right; split; [intros (a & X); discriminate|eauto]].
Qed.

(** An attribute with given values. *)
Lemma values_eq name vs l po r w : w_pops w = l ++ po :: r -> p_size po <> 0%Z -> length vs = length (p_ids po) ->
  create_attribute (length l) name (Some (VValues vs)) None None w =
  (Ok (length (w_attrs w)),
   set_pops (l ++ mkPop (p_ids po) (p_size po) (dset name (length (w_attrs w)) (p_attrs po)) (p_rels po) :: r)
     (set_attrs (w_attrs w ++ [combine (p_ids po) vs]) w)).
Proof.
  intros Hp Hn Hl. unfold create_attribute, attr_table, bindM at 1 2, deref. rewrite Hp, nth_mid.
  apply Z.eqb_neq in Hn. rewrite Hn. unfold lift, table_of. rewrite Hl, Nat.eqb_refl. unfold bindM, get, modify, put_pop, ret.
  rewrite Hp, nth_mid. cbn -[dset combine set_nth]. rewrite Hp, set_mid. reflexivity.
Qed.

Lemma relationship_seed_eq name l po r w s sd : w_pops w = l ++ po :: r -> next_seed (w_seeder w) = (s, sd) ->
  create_relationship (length l) name None w =
  (Ok (length (w_rels w)),
   set_pops (l ++ mkPop (p_ids po) (p_size po) (p_attrs po) (dset name (length (w_rels w)) (p_rels po)) :: r)
     (set_rels (w_rels w ++ [new_relationship (w_prng w) s]) (set_seeder sd w))).
Proof.
  intros Hp Hs. unfold create_relationship, next_of_seeder, bindM, deref, get, modify, put_pop, ret. rewrite Hp, nth_mid, Hs.
  cbn -[dset set_nth new_relationship]. rewrite Hp, set_mid. reflexivity.
Qed.

(** The numbers of the SIMs: as many different ones as needed, if there are enough. *)
Definition enough_numbers (params : cdr_params) (m : nat) : Prop := (Z.of_nat m <= 7 * (10 ^ Z.of_nat (digits params) - 1))%Z.
Lemma numbers_does name params fresh h l po r w :
  let x := new_msisdn "0032" msisdn_prefixes (digits params) fresh in
  w_gens w = h ++ [x] -> w_pops w = l ++ po :: r -> p_size po = Z.of_nat (length (p_ids po)) -> p_ids po <> [] ->
  does (create_attribute (length l) name None (Some (length h)) None) w (enough_numbers params (length (p_ids po)))
    (fun a w' => exists vs x', a = length (w_attrs w) /\ length vs = length (p_ids po) /\ NoDup vs /\
       (forall v, In v vs -> exists p tail, v = VStr ("0032" ++ p ++ tail) /\ In p msisdn_prefixes /\ String.length tail = digits params /\ digits_only tail) /\
       w' = set_pops (l ++ mkPop (p_ids po) (p_size po) (dset name (length (w_attrs w)) (p_attrs po)) (p_rels po) :: r)
             (set_attrs (w_attrs w ++ [combine (p_ids po) vs]) (set_gens (h ++ [x']) w))).
Proof.
  intros x Hg Hp Hs Hne.
  assert (L0 : length (p_ids po) <> 0) by (destruct (p_ids po); [easy|discriminate]).
  pose proof (msisdn_exhausted "0032" msisdn_prefixes (digits params) fresh [] [] x (p_size po) eq_refl ltac:(lia)) as He. cbn zeta in He. cbn [zsum] in He.
  change (Z.of_nat (length msisdn_prefixes)) with 7%Z in He. rewrite Z.sub_0_r in He. unfold enough_numbers.
  destruct (Z.ltb_spec (7 * (10 ^ Z.of_nat (digits params) - 1)) (p_size po)) as [Hlt|Hge].
  - right. split; [lia|]. exists ValueError, w. unfold create_attribute, attr_table, bindM at 1 2, deref. rewrite Hp, nth_mid.
    rewrite (proj2 (Z.eqb_neq _ _)) by lia. unfold bindM at 1, generate, bindM at 1, get, lift, bindM. rewrite Hg.
    unfold gen_generate. cbn [heap_generate]. rewrite nth_mid. fold x. change (gen_step x (p_size po) = Err ValueError) in He.
    unfold x, new_msisdn in He |- *. rewrite He. reflexivity.
  - left. split; [lia|]. destruct (gen_step x (p_size po)) as [[vs x']|e] eqn:Ex; [|discriminate He].
    assert (Eh : heap_calls gen_step x [p_size po] = Ok ([vs], x')) by (cbn [heap_calls]; rewrite Ex; reflexivity).
    assert (Hw : digits params <> 0). { intros X. rewrite X in Hge. cbn in Hge. lia. }
    destruct (msisdn_unique "0032" msisdn_prefixes (digits params) fresh [p_size po] [vs] x') as (U1 & U2 & U3); [|exact Hw|exact Eh|].
    { apply nodupb_NoDup. reflexivity. }
    cbn [map concat] in U1, U2, U3. rewrite app_nil_r in U2, U3. injection U1 as U1.
    assert (Lv : length vs = length (p_ids po)) by lia.
    exists (length (w_attrs w)). eexists. split; [eapply attribute_eq; [exact Hg|exact Hp|exact Ex|lia|exact Lv]|].
    exists vs, x'. repeat (split; [assumption || reflexivity|]). reflexivity.
Qed.

Lemma numbers_ok vs : Forall (fun v => exists q, v = VNum q) vs -> exists qs, numbers vs = Ok qs /\ length qs = length vs.
Proof. induction 1 as [|v vs (q & ->) H (qs & E & L)]; [exists []; auto|]. exists (this q :: qs). unfold numbers in *. cbn [mapr as_Q bind]. rewrite E. cbn. auto. Qed.

Lemma mapping_length ids : forall opss, length opss = length ids -> length (subs_ops_mapping ids opss) = list_sum (map (@length val) opss).
Proof.
  induction ids as [|i ids IH]; intros [|o opss] H; try discriminate; [reflexivity|]. injection H as H. unfold subs_ops_mapping in *. cbn [combine flat_map map list_sum fold_right].
  rewrite app_length, map_length, IH by exact H. reflexivity.
Qed.

Definition good_operators (ops : list val) : Prop := 1 <= length ops <= 4 /\ NoDup ops /\ incl ops operator_ids.

Lemma create_subs_does x params pg sd ck : (0 < n_subscribers params)%Z ->
  exists opss graph_seed, length opss = length (subs_ids params) /\ Forall good_operators opss /\
  let mapping := subs_ops_mapping (subs_ids params) opss in
  let sims := sims_ids (length mapping) in
  let graph := make_random_bipartite_data sims (agent_ids params) (3#10) (nx_bipartite x graph_seed (length sims) (length (agent_ids params)) (3#10)) in
  does (create_subs_and_sims x params) (mkWorld pg sd ck [] [] [] [] [] [] [] [] [])
    (enough_numbers params (length mapping) /\ exists df, graph = Ok df)
    (fun r w' => exists df numbs ws rs s1 rel_sims s2 rel_agents sd' g0 g1 g3 g4,
       r = (0, 1, 2) /\ graph = Ok df /\
       length numbs = length mapping /\ NoDup numbs /\
       (forall v, In v numbs -> exists p tail, v = VStr ("0032" ++ p ++ tail) /\ In p msisdn_prefixes /\ String.length tail = digits params /\ digits_only tail) /\
       Forall (fun v => exists n, v = VNum (exponential x n)) ws /\ numbers ws = Ok rs /\ length rs = length df /\
       add_relations (new_relationship pg s1) (map fst mapping) sims (WScalar 1) = Ok rel_sims /\
       add_relations (new_relationship pg s2) (map fst df) (map snd df) (WArray rs) = Ok rel_agents /\
       w' = mkWorld pg sd' ck
              [combine sims (map snd mapping); combine sims (repeat (vz 1000) (length mapping)); combine sims numbs]
              [rel_sims; rel_agents] [g0; g1; GConst (vz 1000); g3; g4] [] []
              [mkPop (subs_ids params) (n_subscribers params) [] [("SIMS"%string, 0)];
               mkPop sims (Z.of_nat (length mapping)) [("OPERATOR"%string, 0); ("MAIN_ACCT"%string, 1); ("MSISDN"%string, 2)] [("POSSIBLE_AGENTS"%string, 1)]]
              [] [("subs"%string, 0); ("sims"%string, 1)] []).
Proof.
  intros Hn.
  set (w0 := mkWorld pg sd ck [] [] [] [] [] [] [] [] []).
  destruct (runs_seed w0) as (z0 & sd0 & E0).
  assert (Ln : length (subs_ids params) = Z.to_nat (n_subscribers params)) by (unfold subs_ids; now rewrite map_length, build_ids_length).
  destruct (choice 4 (Z.to_nat (n_subscribers params)) (random_state pg z0)) as [[choices npgen1]|e] eqn:Ec.
  2:{ exfalso. unfold choice in Ec. cbn [Nat.eqb andb] in Ec. destruct (draws _ _ _); discriminate. }
  destruct (choice_spec _ _ _ _ _ Ec) as [Lc Fc].
  destruct (pick_operators_spec (map S choices)) with (r := npgen1) as (opss & npgen2 & Ep & Fp).
  { apply Forall_forall. intros q Hq. apply in_map_iff in Hq as (c & <- & Hc). rewrite Forall_forall in Fc. specialize (Fc _ Hc). cbn in Fc. lia. }
  assert (Lo : length opss = length (subs_ids params)). { apply Forall2_length in Fp. rewrite map_length in Fp. lia. }
  assert (Go : Forall good_operators opss).
  { clear -Fp Fc. revert opss Fp Fc. induction choices as [|c choices IH]; intros opss Fp Fc; inversion Fp as [|? ? ? ? (A & B & C) F]; subst; [constructor|]. inversion Fc as [|? ? X Y]; subst. constructor; [|auto].
    split; [lia|split; assumption]. }
  set (mapping := subs_ops_mapping (subs_ids params) opss). set (sims := sims_ids (length mapping)).
  assert (Ls : length sims = length mapping) by (unfold sims, sims_ids; rewrite map_length, build_ids_length; lia).
  assert (Lm : 0 < length mapping).
  { unfold mapping. rewrite mapping_length by exact Lo. destruct opss as [|o opss]; [cbn in Lo; lia|]. inversion Go as [|? ? (G1 & _) _]; subst. cbn [map list_sum fold_right]. lia. }
  assert (Sne : sims <> []) by (intros X; rewrite X in Ls; cbn in Ls; lia).
  (* the seed of the graph *)
  set (w1 := set_seeder sd0 w0) in *.
  destruct (next_seed sd0) as [zr sdr] eqn:Er. destruct (next_seed sdr) as [zm sdm] eqn:Em. destruct (next_seed sdm) as [zg sdg] eqn:Eg.
  exists opss, zg. split; [exact Lo|]. split; [exact Go|]. cbn zeta. fold mapping sims.
  set (graph := make_random_bipartite_data sims (agent_ids params) (3#10) (nx_bipartite x zg (length sims) (length (agent_ids params)) (3#10))).
  match goal with |- does _ _ _ ?X => set (Q := X) end.
  unfold create_subs_and_sims. rewrite (proj2 (Z.leb_gt _ _)) by exact Hn.
  eapply does_step; [reflexivity|]. eapply does_step; [exact E0|]. clear E0. unfold w1, w0. clear w1 w0. cbn zeta. worlds.
  eapply does_step; [apply alloc_gen_eq|]. worlds. cbn [app length].
  eapply does_weaken; [|intros a w' X; exact X|eapply does_bind].
  2:{ apply (population_gen_does "subs" [] (GSeq 0 "SUBS_" 10) (n_subscribers params) (subs_ids params) (GSeq (0 + n_subscribers params) "SUBS_" 10)); [reflexivity|reflexivity|lia|].
      apply seq_ids_NoDup. }
  { worlds. instantiate (1 := enough_numbers params (length mapping) /\ exists df, graph = Ok df). tauto. }
  intros p0 w1 _ (-> & ->). worlds. cbn [app length dset].
  eapply does_step; [apply deref_eq; reflexivity|]. cbn [p_size p_ids].
  eapply does_step; [unfold lift; rewrite Ec; reflexivity|].
  eapply does_step; [unfold lift; rewrite Ep; reflexivity|].
  fold mapping.
  eapply does_step; [apply alloc_gen_eq|]. worlds. cbn [app length].
  eapply does_weaken; [|intros a w' X; exact X|eapply does_bind].
  2:{ apply (population_gen_does "sims" [GSeq (0 + n_subscribers params) "SUBS_" 10] (GSeq 0 "SIMS_" 10) (Z.of_nat (length mapping)) sims (GSeq (0 + Z.of_nat (length mapping)) "SIMS_" 10)); [reflexivity|reflexivity|lia|].
      apply seq_ids_NoDup. }
  { worlds. instantiate (1 := enough_numbers params (length mapping) /\ exists df, graph = Ok df). cbn. tauto. }
  intros p1 w1 _ (-> & ->). worlds. cbn [app length].
  eapply does_step.
  { eapply (values_eq "OPERATOR" (map snd mapping) [_] _ []); [reflexivity|cbn [p_size]; lia|cbn [p_ids]; now rewrite map_length]. }
  worlds. cbn [app length p_ids p_size p_attrs p_rels].
  eapply does_step; [apply alloc_gen_eq|]. worlds. cbn [app length].
  eapply does_step.
  { eapply (attribute_eq "MAIN_ACCT" [_; _] (GConst (vz 1000)) (repeat (vz 1000) (length mapping)) (GConst (vz 1000)) [_] _ []);
      [reflexivity|reflexivity|cbn [p_size gen_step]; now rewrite Nat2Z.id|cbn [p_size]; lia|cbn [p_ids]; now rewrite repeat_length]. }
  worlds. cbn [app length p_ids p_size p_attrs p_rels].
  eapply does_step; [eapply (relationship_seed_eq "SIMS" [] _ [_]); [reflexivity|exact Er]|]. worlds. cbn [app length p_ids p_size p_attrs p_rels].
  eapply does_step; [apply deref_eq; reflexivity|]. cbn [p_size p_ids].
  destruct (add_relations_ok (new_relationship pg zr) (map fst mapping) sims (WScalar 1)) as (rel_sims & Erel);
    [rewrite map_length; lia|cbn [weights_list]; now rewrite repeat_length|].
  eapply does_step; [eapply (rel_add_eq _ []); [reflexivity|exact Erel]|]. worlds. cbn [app].
  assert (Em' : forall w', w_seeder w' = sdr -> next_of_seeder w' = (Ok zm, set_seeder sdm w')).
  { intros w' X. unfold next_of_seeder, bindM, get, modify, ret. now rewrite X, Em. }
  eapply does_step; [apply Em'; reflexivity|]. worlds. clear Em'.
  eapply does_step; [apply alloc_gen_eq|]. worlds. cbn [app length].
  eapply does_weaken; [|intros a w' X; exact X|eapply does_bind].
  2:{ eapply (numbers_does "MSISDN" params _ [_; _; _] [_] _ []); [reflexivity|reflexivity|cbn [p_size p_ids]; lia|exact Sne]. }
  { cbn [p_ids]. rewrite Ls. instantiate (1 := exists df, graph = Ok df). tauto. }
  cbn [p_ids]. intros a w1 _ (numbs & g3 & -> & N1 & N2 & N3 & ->). rewrite Ls in N1. worlds. cbn [app length p_ids p_size p_attrs p_rels].
  assert (Eg' : forall w', w_seeder w' = sdm -> next_of_seeder w' = (Ok zg, set_seeder sdg w')).
  { intros w' X. unfold next_of_seeder, bindM, get, modify, ret. now rewrite X, Eg. }
  eapply does_step; [apply Eg'; reflexivity|]. worlds. clear Eg'. cbn zeta. fold (agent_ids params). fold graph.
  eapply does_weaken; [|intros a w' X; exact X|eapply does_bind; [apply does_lift|]].
  { instantiate (1 := True). split; [intros [X _]; exact X|intros X; split; [exact X|exact I]]. }
  intros df w1 _ (Egr & ->).
  match goal with |- does (bindM (create_relationship _ _ _) _) ?W _ _ => edestruct (relationship_eq "POSSIBLE_AGENTS" [_] _ [] W eq_refl) as (rs2 & rsd2 & Er2) end.
  eapply does_step; [exact Er2|]. clear Er2. worlds. cbn [app length p_ids p_size p_attrs p_rels].
  match goal with |- does _ ?W _ _ => destruct (runs_seed W) as (q1 & sd2 & Eq1) end. eapply does_step; [exact Eq1|]. clear Eq1. worlds.
  eapply does_step; [apply alloc_gen_eq|]. worlds. cbn [app length].
  destruct (other_step (exponential x) (random_state pg q1) (Z.of_nat (length df))) as (ws & hst & Hh1 & Hh2 & Hh3); [lia|].
  eapply does_step; [eapply (leaf_generate _ [_; _; _; _] _ []); [reflexivity|exact Hh3]|]. worlds. cbn [app].
  destruct (numbers_ok ws) as (rs & Ers & Lrs). { eapply Forall_impl; [|exact Hh2]. cbn. intros v (n & ->). eauto. }
  destruct (add_relations_ok (new_relationship pg rs2) (map fst df) (map snd df) (WArray rs)) as (rel_agents & Erel2);
    [rewrite !map_length; lia|cbn [weights_list]; rewrite map_length; lia|].
  eapply does_step.
  { unfold rel_add_weighted, bindM, deref, lift, put_rel, modify. worlds. cbn [nth_error app length]. rewrite Ers, Erel2. worlds. cbn [set_nth]. reflexivity. }
  worlds. eapply does_eq; [reflexivity|]. unfold Q.
  exists df, numbs, ws, rs, zr, rel_sims, rs2, rel_agents. eexists _, _, _, _, _.
  repeat (split; [assumption || reflexivity || lia|]). reflexivity.
Qed.
