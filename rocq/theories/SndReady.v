(** The SND scenario, as constructed, is one whose stories never raise. *)
From Verif Require Import Base BaseFacts Rng RngFacts Utils UtilsFacts Relationship RelationshipFacts SpecRelationship RelationshipMany RelationshipProps
  Frame Gens GensProps Clock SpecClock ClockProps Attribute AttributeFacts SpecAttribute World Story Ops OpsFacts Circus SpecStory StoryFacts StoryNew SpecOps SpecWorld SpecPopulation GensKept PopFacts PopMore SpecSetup SetupProps
  SpecCircus SpecLocal SpecSupply SpecLedger SpecRecords SpecSafe SafeOps Geography SpecGeography GeographyRun GeographyBuild SpecComponents Components ComponentsFacts
  Cdr SpecCdr CdrSetup CdrSubs SpecCdrSetup CdrSubsProps SpecPrompt CdrStories CdrBuild CdrReady Snd SpecSnd SpecSndReady SpecArchive SpecCdrMoves SpecSndReviews SndSetup SndBuild SpecHolidays SpecSndSetup.
From Coq Require Import Permutation Lqa.
Local Open Scope nat_scope.

Lemma serials_ids prefix width n : serials prefix width n (map VStr (build_ids n 0 prefix width)).
Proof.
  split; [apply seq_ids_NoDup|]. intros v. unfold build_ids. rewrite map_map, in_map_iff. split.
  - intros (k & <- & Hk). apply in_seq in Hk. exists (Z.of_nat k). split; [lia|]. reflexivity.
  - intros (k & Hk & ->). exists (Z.to_nat k). split; [|apply in_seq; lia]. rewrite Z.add_0_l, Z2Nat.id by lia. reflexivity.
Qed.
Lemma serials_perm prefix width n l l' : Permutation l l' -> serials prefix width n l -> serials prefix width n l'.
Proof.
  intros P [N H]. split; [eapply Permutation_NoDup; eauto|]. intros v. rewrite <- H. split; apply Permutation_in; [symmetry|]; exact P.
Qed.
Lemma strings_plain (l : list string) (xs : list val) : ~ In (VList xs) (map VStr l).
Proof. intros H. apply in_map_iff in H as (a & H & _). discriminate. Qed.
Lemma strings_not_na (l : list string) : ~ In VNA (map VStr l).
Proof. intros H. apply in_map_iff in H as (a & H & _). discriminate. Qed.
Lemma broke_no_dealer params : ~ In broke_dealer (dealer_ids params).
Proof.
  intros H. pose proof (serials_ids "DEALER_" 3 (how_many_dealers params)) as [_ S]. apply S in H as (k & _ & H). discriminate.
Qed.
Lemma combine_snd_fst (assigned : list (val * val)) : combine (map snd assigned) (map fst assigned) = map (fun e => (snd e, fst e)) assigned.
Proof. induction assigned as [|[a b] l IH]; cbn; [reflexivity|]. now f_equal. Qed.

(** The pairs of a new relationship. *)
Lemma new_pairs pg s froms tos rel : length tos = length froms -> add_relations (new_relationship pg s) froms tos (WScalar 1) = Ok rel ->
  Permutation (map fst (stored rel)) (combine froms tos) /\ reachable rel /\ forall f t q, In (f, t, q) (stored rel) -> (0 < q)%Q.
Proof.
  intros L E. pose proof (add_exact _ _ _ _ _ (reach_new _ _) E) as P. rewrite new_rel_stored in P. cbn [app] in P. split; [|split].
  - rewrite (Permutation_map fst P), lines3_fst; [reflexivity|exact L|cbn [weights_list]; now rewrite repeat_length].
  - eapply reach_add; [apply reach_new|exact E].
  - intros f t q H. apply (Permutation_in _ P) in H. apply lines3_pos in H as [_ H]. cbn [weights_list] in H. apply repeat_spec in H. subst q. lra.
Qed.
(** ... and of one that is added to. *)
Lemma more_pairs rel froms tos rel' : reachable rel -> (forall f t q, In (f, t, q) (stored rel) -> (0 < q)%Q) -> length tos = length froms -> add_relations rel froms tos (WScalar 1) = Ok rel' ->
  Permutation (map fst (stored rel')) (map fst (stored rel) ++ combine froms tos) /\ reachable rel' /\ forall f t q, In (f, t, q) (stored rel') -> (0 < q)%Q.
Proof.
  intros R W L E. pose proof (add_exact _ _ _ _ _ R E) as P. split; [|split].
  - rewrite (Permutation_map fst P), map_app, lines3_fst; [reflexivity|exact L|cbn [weights_list]; now rewrite repeat_length].
  - eapply reach_add; [exact R|exact E].
  - intros f t q H. apply (Permutation_in _ P) in H. apply in_app_iff in H as [H|H]; [exact (W _ _ _ H)|]. apply lines3_pos in H as [_ H]. cbn [weights_list] in H. apply repeat_spec in H. subst q. lra.
Qed.

Lemma about_combine_one ids : forall tos k, NoDup ids -> length tos = length ids -> In k ids -> exists t : val, In t tos /\ map snd (about k (combine ids tos)) = [t].
Proof.
  unfold about. induction ids as [|i ids IH]; intros [|t tos] k Nd L H; try discriminate; [destruct H|]. inversion Nd as [|? ? N1 N2]; subst. injection L as L. cbn [combine filter fst].
  destruct (val_eqb i k) eqn:E.
  - apply val_eqb_eq in E. subst i. exists t. split; [now left|]. cbn. f_equal.
    replace (filter _ (combine ids tos)) with (@nil (val * val)); [reflexivity|]. symmetry. destruct (filter _ _) as [|[a b] l] eqn:F; [reflexivity|]. exfalso.
    assert (X : In (a, b) (filter (fun x : val * val => val_eqb (fst x) k) (combine ids tos))) by (rewrite F; now left).
    apply filter_In in X as [X Y]. cbn in Y. apply val_eqb_eq in Y. subst. apply in_combine_l in X. contradiction.
  - destruct H as [->|H]; [rewrite (proj2 (val_eqb_eq k k) eq_refl) in E; discriminate|]. destruct (IH tos k N2 L H) as (t' & A & B). exists t'. split; [now right|exact B].
Qed.
Lemma filter_perm {A} (f : A -> bool) l l' : Permutation l l' -> Permutation (filter f l) (filter f l').
Proof.
  induction 1 as [|x l l' P IH|x y l|l1 l2 l3 P1 IH1 P2 IH2]; cbn; [constructor| | |etransitivity; eauto].
  - destruct (f x); [now constructor|exact IH].
  - destruct (f x), (f y); try reflexivity. constructor.
Qed.
Lemma items_perm w r k l : Permutation (pairs_of w r) l -> Permutation (items w r k) (map snd (about k l)).
Proof. intros P. unfold items, about. apply Permutation_map, filter_perm, P. Qed.

Section Chain.
  Variables (params : snd_params) (w : world) (pg : prng) (s0 s1 s2 s4 : N) (assigned0 assigned1 : list (val * val)) (assigned4 names sizes : list val) (rel0 rel1' rel1 rel3 rel4 : relationship).
  Hypothesis A0 : map fst assigned0 = distro_stock params.
  Hypothesis B0 : Forall (fun e => In (snd e) (distro_ids params)) assigned0.
  Hypothesis E0 : add_relations (new_relationship pg s0) (map snd assigned0) (map fst assigned0) (WScalar 1) = Ok rel0.
  Hypothesis A1 : map fst assigned1 = dealer_stock params.
  Hypothesis B1 : Forall (fun e => In (snd e) (dealer_ids params)) assigned1.
  Hypothesis E1' : add_relations (new_relationship pg s1) (map snd assigned1) (map fst assigned1) (WScalar 1) = Ok rel1'.
  Hypothesis E1 : add_relations rel1' [broke_dealer; broke_dealer; broke_dealer] broke_sims (WScalar 1) = Ok rel1.
  Hypothesis Bt3 : between rel3 (snd_agent_ids params) (broke_dealer :: dealer_ids params).
  Hypothesis Br3 : forall a, In a (snd_agent_ids params) -> related rel3 a broke_dealer.
  Hypothesis L4 : length assigned4 = length (dealer_ids params).
  Hypothesis I4 : incl assigned4 (distro_ids params).
  Hypothesis E4 : add_relations (new_relationship pg s4) (dealer_ids params) assigned4 (WScalar 1) = Ok rel4.
  Hypothesis Lz : length sizes = length (dealer_ids params).
  Hypothesis Hz : forall v, In v sizes -> exists z, (500 <= z)%Z /\ v = vz z.
  Hypothesis Wr : w_rels w = [rel0; rel1; new_relationship pg s2; rel3; rel4].
  Hypothesis Wa : exists more, w_attrs w = map (fun i => (i, vz 0)) (distro_ids params) :: combine (snd_agent_ids params) names :: combine (dealer_ids params) sizes :: more.

  Lemma chain_facts0 : Permutation (map fst (stored rel0)) (map (fun e => (snd e, fst e)) assigned0) /\ reachable rel0 /\ forall f t q, In (f, t, q) (stored rel0) -> (0 < q)%Q.
  Proof. rewrite <- combine_snd_fst. eapply new_pairs; [now rewrite !map_length|exact E0]. Qed.
  Lemma chain_facts1 : Permutation (map fst (stored rel1)) (map (fun e => (snd e, fst e)) assigned1 ++ map (fun sim => (broke_dealer, sim)) broke_sims) /\ reachable rel1 /\ forall f t q, In (f, t, q) (stored rel1) -> (0 < q)%Q.
  Proof.
    assert (L1 : length (map fst assigned1) = length (map snd assigned1)) by now rewrite !map_length. destruct (new_pairs _ _ _ _ _ L1 E1') as (P & R & W). destruct (more_pairs rel1' [broke_dealer; broke_dealer; broke_dealer] broke_sims rel1 R W eq_refl E1) as (P' & R' & W').
    rewrite combine_snd_fst in P. split; [rewrite P', P; reflexivity|auto].
  Qed.
  Lemma chain_facts4 : Permutation (map fst (stored rel4)) (combine (dealer_ids params) assigned4) /\ reachable rel4 /\ forall f t q, In (f, t, q) (stored rel4) -> (0 < q)%Q.
  Proof. eapply new_pairs; [exact L4|exact E4]. Qed.

  Lemma chain_reachable : Forall reachable (w_rels w).
  Proof.
    rewrite Wr. repeat constructor; [apply chain_facts0|apply chain_facts1| |apply chain_facts4]. apply Bt3.
  Qed.
  Lemma chain_pairs0 : Permutation (pairs_of w 0) (map (fun e => (snd e, fst e)) assigned0). Proof. unfold pairs_of. rewrite Wr. apply chain_facts0. Qed.
  Lemma chain_pairs1 : Permutation (pairs_of w 1) (map (fun e => (snd e, fst e)) assigned1 ++ map (fun sim => (broke_dealer, sim)) broke_sims). Proof. unfold pairs_of. rewrite Wr. apply chain_facts1. Qed.
  Lemma chain_no_na : forall r, In r [0; 1] -> ~ In VNA (map snd (pairs_of w r)).
  Proof.
    intros r [<-|[<-|[]]] H.
    - apply (Permutation_in _ (Permutation_map snd chain_pairs0)) in H. rewrite map_map in H. cbn in H. change (map (fun x : val * val => fst x) assigned0) with (map fst assigned0) in H. rewrite A0 in H. revert H. apply strings_not_na.
    - apply (Permutation_in _ (Permutation_map snd chain_pairs1)) in H. rewrite map_app, !map_map in H. apply in_app_iff in H as [H|H].
      + cbn in H. change (map (fun x : val * val => fst x) assigned1) with (map fst assigned1) in H. rewrite A1 in H. revert H. apply strings_not_na.
      + cbn in H. destruct H as [H|[H|[H|[]]]]; discriminate.
  Qed.
  Lemma chain_items3 a d : In d (items w 3 a) <-> related rel3 a d.
  Proof. apply related_items. rewrite Wr. reflexivity. Qed.
  Lemma chain_items4 : forall d, In d (dealer_ids params) -> exists s, In s (distro_ids params) /\ items w 4 d = [s].
  Proof.
    intros d Hd. destruct (about_combine_one (dealer_ids params) assigned4 d (seq_ids_NoDup _ _ _ _) L4 Hd) as (s & Hs & Es). exists s. split; [now apply I4|].
    assert (P : Permutation (pairs_of w 4) (combine (dealer_ids params) assigned4)) by (unfold pairs_of; rewrite Wr; apply chain_facts4).
    apply (items_perm w 4 d) in P. rewrite Es in P. apply Permutation_sym, Permutation_length_1_inv in P. exact P.
  Qed.
  Lemma chain_suppliers i : incl (items w 4 i) (distro_ids params).
  Proof.
    intros s Hs. assert (P : Permutation (pairs_of w 4) (combine (dealer_ids params) assigned4)) by (unfold pairs_of; rewrite Wr; apply chain_facts4).
    apply in_items_of in Hs. apply (Permutation_in _ P) in Hs. apply in_combine_r in Hs. now apply I4.
  Qed.
  Lemma only_word i word : law (w_gens w) i (GConst word) -> forall v, can_give (w_gens w) i v <-> v = word.
  Proof. intros H v. apply law_const in H. split; [intros G; inversion G; congruence|]. intros ->. now apply give_const. Qed.
  Lemma chain_built c : c = mkSnd 0 1 2 3 0 1 2 3 4 0 2 1 (n_sim_ids c) (n_review_ids c) (n_texts c) (n_going c) (n_returning c) (n_fmt c) ->
    (forall name p ids, In (name, p, ids) [("distros", 0, distro_ids params); ("dealers", 1, dealer_ids params); ("agents", 2, snd_agent_ids params); ("rev", 3, [])]%string ->
       dget name (w_pop_names w) = Some p /\ exists po, nth_error (w_pops w) p = Some po /\ p_ids po = ids) ->
    (forall p name r, In (p, name, r) [(0, "SIM", 0); (1, "SIM", 1); (2, "SIM", 2); (2, "DEALERS", 3); (1, "DISTRIBUTOR", 4)]%string -> relationship_at w p name r) ->
    law (w_gens w) (n_going c) (GConst (VStr "going")) -> law (w_gens w) (n_returning c) (GConst (VStr "returning")) ->
    (exists s, nth_error (w_stories w) 1 = Some s /\ resting s (snd_agent_ids params)) -> fair_judge w ->
    supply_chain w params c (distro_ids params) (dealer_ids params) (snd_agent_ids params).
  Proof.
    intros -> Hpop Hrel Lg Lr (s & Es & Rs1 & Rs2) Fj. constructor; cbn [n_going n_returning n_distros n_dealers n_agents n_reviews n_distro_sims n_dealer_sims n_agent_sims n_dealers_of n_distro_of n_to_restock n_bulk_size].
    - split; [|apply serials_ids]. destruct (Hpop "distros"%string 0 (distro_ids params)) as (H1 & H2); [cbn; tauto|]. split; [exact H1|]. split; [apply seq_ids_NoDup|exact H2].
    - split; [|apply serials_ids]. destruct (Hpop "dealers"%string 1 (dealer_ids params)) as (H1 & H2); [cbn; tauto|]. split; [exact H1|]. split; [apply seq_ids_NoDup|exact H2].
    - split; [|apply serials_ids]. destruct (Hpop "agents"%string 2 (snd_agent_ids params)) as (H1 & H2); [cbn; tauto|]. split; [exact H1|]. split; [apply seq_ids_NoDup|exact H2].
    - destruct (Hpop "rev"%string 3 (@nil val)) as (H1 & H2); [cbn; tauto|]. split; [exact H1|]. split; [constructor|exact H2].
    - repeat split; apply Hrel; cbn; tauto.
    - split.
      + eapply serials_perm; [|apply serials_ids]. fold (distro_stock params). rewrite <- A0. rewrite (Permutation_map snd chain_pairs0), map_map. reflexivity.
      + intros i Hi. apply (Permutation_in _ (Permutation_map fst chain_pairs0)) in Hi. rewrite map_map in Hi. apply in_map_iff in Hi as (e & <- & He). rewrite Forall_forall in B0. exact (B0 _ He).
    - apply broke_no_dealer.
    - exists (map (fun e => (snd e, fst e)) assigned1). split; [exact chain_pairs1|]. split.
      + eapply serials_perm; [|apply serials_ids]. fold (dealer_stock params). rewrite <- A1, map_map. reflexivity.
      + intros i Hi. rewrite map_map in Hi. apply in_map_iff in Hi as (e & <- & He). rewrite Forall_forall in B1. exact (B1 _ He).
    - unfold pairs_of. rewrite Wr. reflexivity.
    - split.
      + intros a Ha. apply chain_items3. apply Br3. exact Ha.
      + intros a d Hd. apply chain_items3 in Hd as (q & Hq). destruct Bt3 as [_ B]. apply B in Hq as (Q1 & Q2 & _). split; [exact Q1|]. destruct Q2 as [<-|Q2]; [now left|now right].
    - exact chain_items4.
    - intros d Hd v. destruct Wa as (more & Ea). unfold holds. rewrite Ea. cbn [nth_error]. split.
      + intros (t & [= <-] & Hv). apply in_map_iff in Hv as (i & [= -> <-] & _). reflexivity.
      + intros ->. eexists. split; [reflexivity|]. apply in_map_iff. eauto.
    - intros d Hd. destruct Wa as (more & Ea). destruct (combine_has_l (dealer_ids params) sizes d (eq_sym Lz) Hd) as (v & Hv).
      destruct (Hz v (in_combine_r _ _ _ _ Hv)) as (z & Z1 & ->). exists z. split; [exact Z1|]. intros v'. unfold holds. rewrite Ea. cbn [nth_error]. split.
      + intros (t & [= <-] & Hv'). eapply combine_unique_l; [apply seq_ids_NoDup|exact Hv'|exact Hv].
      + intros ->. eauto.
    - split; apply only_word; [exact Lg|exact Lr].
    - split; [exists s; auto|]. split; [exact Fj|]. intros s' Es'. unfold purchases in Es'. rewrite Es in Es'. injection Es' as <-. exact Rs2.
  Qed.
End Chain.

Definition snd_scenario (params : snd_params) (w : world) (c : snd_names) : Prop :=
  exists distributors dealers agents,
    snd_circus w c distributors dealers agents /\ supply_chain w params c distributors dealers agents /\
    ((second <= Clock.c_step (w_clock w))%Z -> snd_ready w c distributors dealers agents) /\
    reviews_kept w c /\ ids_reserved w c 0 "REVIEW_ID" 10.

Lemma map_filled w a ids v (ok : val -> Prop) : nth_error (w_attrs w) a = Some (map (fun i => (i, v)) ids) -> NoDup ids -> ok v -> filled w a ids (fun _ => ok).
Proof.
  intros E N H. exists (map (fun i => (i, v)) ids). split; [exact E|]. rewrite map_map. cbn. rewrite map_id. split; [exact N|]. split; [apply incl_refl|].
  intros k u Hk. apply in_map_iff in Hk as (i & [= <- <-] & _). exact H.
Qed.
Lemma fair_law w judge st : law (w_gens w) judge (GNumpy NpUniform st None) -> uniform_generator w judge.
Proof. intros (y & E & S). destruct y; try contradiction. destruct S as [<- B]. exists state. rewrite E. now rewrite (proj1 B eq_refl). Qed.
Lemma law_differs h i j k prefix width x : nth_error h i = Some (GSeq k prefix width) -> law h j x -> match x with GSeq _ _ _ => False | _ => True end -> j <> i.
Proof. intros E (y & E' & S) N ->. rewrite E in E'. injection E' as <-. destruct x; cbn in S; contradiction. Qed.

Definition a_leaf (x : gen) : Prop := match x with GMap _ _ | GBulk _ _ => False | _ => True end.
Lemma leaf_apart w g x i : law (w_gens w) g x -> a_leaf x -> g <> i -> ~ generator_of w g (OGenerator i).
Proof.
  intros (y & E & S) L N (j & [= <-] & B). assert (Ly : a_leaf y) by (destruct x, y; cbn in *; tauto). inversion B; subst; [contradiction| | |]; rewrite E in *;
    match goal with H : Some _ = Some _ |- _ => injection H as -> end; contradiction.
Qed.

Definition snd_buildable (x : snd_sources) (params : snd_params) (ck : clock) : Prop := feasible x params /\ can_start high_week_days_profile ck.

Lemma build_snd_may x params pg sd ck : sizes_ok params -> sane_snd_sources x ->
  may (snd_buildable x params ck) (build_snd x params) (mkWorld pg sd ck [] [] [] [] [] [] [] [] [])
    (fun c w => snd_scenario params w c /\ c_date (w_clock w) = c_date ck /\ c_step (w_clock w) = c_step ck).
Proof.
  intros Sz (Hexp & Hlomax & Hso). set (G := snd_buildable x params ck).
  match goal with |- may _ _ _ ?X => set (Q := X) end.
  unfold build_snd.
  assert (Ez : existsb (fun n => n <=? 0)%Z [how_many_agents params; how_many_dealers params; how_many_distributors params; dealer_sims params; distributor_sims params] = false).
  { destruct Sz as [S1 S2 S3 S4 S5]. cbn [existsb]. rewrite !(proj2 (Z.leb_gt _ _)) by assumption. reflexivity. }
  rewrite Ez. clear Ez.
  assert (Ls : Z.of_nat (length (distro_ids params)) = how_many_distributors params /\ Z.of_nat (length (dealer_ids params)) = how_many_dealers params /\ Z.of_nat (length (snd_agent_ids params)) = how_many_agents params).
  { destruct Sz as [S1 S2 S3 S4 S5]. unfold distro_ids, dealer_ids, snd_agent_ids. rewrite !ids_length. lia. }
  destruct Ls as (Ls0 & Ls1 & Ls2).
  assert (Nd0 : NoDup (distro_ids params)) by apply seq_ids_NoDup. assert (Nd1 : NoDup (dealer_ids params)) by apply seq_ids_NoDup. assert (Nd2 : NoDup (snd_agent_ids params)) by apply seq_ids_NoDup.
  assert (Hstart : G -> can_start high_week_days_profile ck) by (intros HG; apply HG).
  eapply may_bind; [apply distributors_may; exact Sz|].
  cbv beta. intros r w1 (assigned0 & rel0 & sd0 & sd1 & g0 & -> & A0 & B0 & E0 & ->).
  eapply may_bind; [apply (restock_may G x); [cbn [p_size p_ids]; lia|exact Nd0|exact Hso]|].
  cbv beta. cbn [p_ids length]. intros [] w1 (gens1 & tgens1 & st0 & b0 & -> & T1 & K1 & J0 & M0). cbn [app] in *.
  eapply may_bind; [apply (dealers_may G params); exact Sz|].
  cbv beta. intros r w1 (assigned1 & rel1' & rel1 & sd1' & sd2 & g2 & -> & A1 & B1 & E1' & E1 & ->).
  eapply may_bind; [apply (agents_may G x params); exact Sz|].
  cbv beta. intros r w1 (vs & sd3 & sd3' & g3 & g4 & -> & Lv & ->).
  eapply may_bind; [apply (customers_may G x params); [exact Sz|reflexivity|reflexivity|reflexivity|exact Hexp|]|].
  { intros ((F1 & F2 & F3 & F4 & F5 & F6 & F7) & _) seed. cbv zeta in F7. specialize (F7 seed). destruct F7 as [F7 F8].
    assert (La : length (snd_agent_ids params) = Z.to_nat (how_many_agents params)) by lia. assert (Ld : length (dealer_ids params) = Z.to_nat (how_many_dealers params)) by lia.
    unfold customers. rewrite La, Ld. edestruct (bipartite_edges (snd_agent_ids params) (dealer_ids params) (deg_prob params)) as (df & E & _); [exact F7| | | | |exists df; exact E].
    - intros X. rewrite X in La. cbn in La. lia.
    - intros X. rewrite X in Ld. cbn in Ld. lia.
    - unfold deg_prob. intros X. assert (Ha : ~ inject_Z (how_many_agents params) == 0) by (unfold Qeq; cbn; lia). assert (Hd : ~ inject_Z (how_many_dealers params) == 0) by (unfold Qeq; cbn; lia).
      apply Qmult_integral in X as [X|X]; [|contradiction]. unfold Qdiv in X. apply Qmult_integral in X as [X|X]; [contradiction|]. apply Ha. rewrite <- (Qinv_involutive (inject_Z (how_many_agents params))), X. reflexivity.
    - rewrite La, Ld. exact F8. }
  cbv beta. cbn [p_size p_attrs]. intros r w1 (rel3 & sd4 & g5 & -> & Bt3 & Br3 & ->).
  eapply may_bind; [apply (suppliers_may G x params); try reflexivity; [exact Sz|exact Hlomax]|].
  cbv beta. intros r w1 (rel4 & sd5 & assigned4 & sd5' & g6 & sizes & -> & L4 & I4 & E4 & Lz & Hz & ->).
  eapply may_bind; [apply (purchases_may G x); [cbn [p_size p_ids]; lia|exact Nd2|exact Hso|apply M0|exact Hstart]|].
  cbv beta. cbn [p_ids]. intros [] w1 (sd6 & gens6 & tgens6 & st1 & b1 & -> & T6 & K6 & J1 & M1 & Hol & Rest).
  eapply may_bind; [apply (bulk_may G x); [cbn [p_size p_ids]; lia|exact Nd1|exact Hso|apply M0|apply M1|exact Hstart]|].
  cbv beta. cbn [p_ids]. intros [] w1 (sd7 & gens7 & tgens7 & st2 & b2 & -> & T7 & K7 & J2 & M2).
  eapply may_bind; [apply (holidays_may G x); [cbn [p_size p_ids]; lia|exact Nd2|exact Hso|apply M0|apply M1|apply M2|exact Hstart]|].
  cbv beta. cbn [p_ids]. intros r w1 (sd8 & gens8 & tgens8 & st3 & st4 & b3 & b4 & going & returning & -> & -> & T8 & K8 & J3 & J4 & Lg & Lr & M3 & M4).
  eapply may_bind; [apply (reviews_may G x); [cbn [p_size p_ids]; lia|exact Nd2|exact Hso|reflexivity| |exact Hstart]|].
  { cbn [map st_name with_ops]. destruct M0 as (-> & _), M1 as (-> & _), M2 as (-> & _), M3 as (-> & _), M4 as (-> & _). reflexivity. }
  cbv beta. cbn [p_ids dset keqb]. intros r w1 (sd9 & gens9 & tgens9 & st5 & b5 & ids & texts & tseed & -> & -> & T9 & K9 & J5 & Eids & Lt & Hids & M5).
  eapply may_eq; [reflexivity|]. unfold Q. clear Q. split; [|split; reflexivity].
  assert (Lsim : law gens9 1 (GSeq (0 + distributor_sims params) "SIM_" 30)).
  { eapply law_kept; [exact K9|]. eapply law_kept; [exact K8|]. eapply law_kept; [exact K7|]. eapply law_kept; [exact K6|].
    do 4 (eapply law_kept; [apply gens_kept_app|]). eapply law_kept; [exact K1|]. apply law_nth. reflexivity. }
  assert (Long : 1 < length gens8).
  { assert (X : law gens8 1 (GSeq (0 + distributor_sims params) "SIM_" 30)).
    { eapply law_kept; [exact K8|]. eapply law_kept; [exact K7|]. eapply law_kept; [exact K6|].
      do 4 (eapply law_kept; [apply gens_kept_app|]). eapply law_kept; [exact K1|]. apply law_nth. reflexivity. }
    destruct X as (y & X & _). apply nth_error_Some. rewrite X. discriminate. }
  assert (J0' : law gens9 b0 (GNumpy NpUniform (random_state pg 1234) None)).
  { eapply law_kept; [exact K9|]. eapply law_kept; [exact K8|]. eapply law_kept; [exact K7|]. eapply law_kept; [exact K6|].
    do 4 (eapply law_kept; [apply gens_kept_app|]). exact J0. }
  assert (J1' : law gens9 b1 (GNumpy NpUniform (random_state pg 1234) None)).
  { eapply law_kept; [exact K9|]. eapply law_kept; [exact K8|]. eapply law_kept; [exact K7|]. exact J1. }
  assert (J2' : law gens9 b2 (GNumpy NpUniform (random_state pg 1234) None)).
  { eapply law_kept; [exact K9|]. eapply law_kept; [exact K8|]. exact J2. }
  eapply law_kept in J3; [|exact K9]. eapply law_kept in J4; [|exact K9]. eapply law_kept in Lg; [|exact K9]. eapply law_kept in Lr; [|exact K9].
  clear K1 K6 K7 K8 K9 J0 J1 J2.
  match goal with |- snd_scenario _ ?W ?C => set (w := W); set (c := C) end.
  destruct M0 as (M01 & M02 & M03 & M04 & M05), M1 as (M11 & M12 & M13 & M14 & M15), M2 as (M21 & M22 & M23 & M24 & M25), M3 as (M31 & M32 & M33 & M34 & M35), M4 as (M41 & M42 & M43 & M44 & M45), M5 as (M51 & M52 & M53 & M54 & M55).
  assert (Hjudge : forall a s judge, nth_error (w_stories w) a = Some s -> In (OpBack a judge) (st_ops s) -> law gens9 judge (GNumpy NpUniform (random_state pg 1234) None)).
  { intros a s0 judge Ha Hj.
      assert (X : judge = b0 \/ judge = b1 \/ judge = b2 \/ judge = b3 \/ judge = b4 \/ judge = b5).
      { do 6 (destruct a as [|a]; [cbn [nth_error w w_stories] in Ha; injection Ha as <-; cbn in Hj;
          repeat (destruct Hj as [Hj|Hj]; [first [discriminate|injection Hj as <-; auto 10]|]); contradiction|]). destruct a; discriminate. }
      destruct X as [->|[->|[->|[->|[->| ->]]]]]; assumption. }
  exists (distro_ids params), (dealer_ids params), (snd_agent_ids params).
  pose proof (chain_reachable params w pg sd0 sd1' sd3 sd5 assigned0 assigned1 assigned4 rel0 rel1' rel1 rel3 rel4 E0 E1' E1 Bt3 L4 E4 eq_refl) as Reach.
  split; [|split; [|split; [|split]]].
  - constructor.
    + reflexivity.
    + eexists. split; [reflexivity|]. split; [exact M02|]. split; [exact M03|]. eexists. reflexivity.
    + eexists. split; [reflexivity|]. split; [exact M12|]. split; [exact M13|]. eexists. reflexivity.
    + eexists. split; [reflexivity|]. split; [exact M22|]. split; [exact M23|]. eexists. reflexivity.
    + eexists. split; [reflexivity|]. split; [exact M32|]. split; [exact M33|]. eexists. reflexivity.
    + eexists. split; [reflexivity|]. split; [exact M42|]. split; [exact M43|]. eexists. reflexivity.
    + eexists. split; [reflexivity|]. split; [exact M52|]. split; [exact M53|]. eexists. reflexivity.
    + split; [eexists; split; reflexivity|]. split; [eexists; split; reflexivity|]. split; [eexists; split; reflexivity|].
      intros a [<-|[<-|[<-|[]]]]; cbn [w w_attrs length c n_to_restock n_bulk_size n_agent_name]; lia.
    + cbn [c n_distro_sims n_dealer_sims n_agent_sims n_dealers_of n_distro_of]. apply nodupb_NoDup. reflexivity.
    + split; [exact Reach|]. intros r [<-|[<-|[<-|[]]]]; eexists; reflexivity.
    + split; [|split].
      * exact (chain_no_na params w pg sd0 sd1' sd3 assigned0 assigned1 rel0 rel1' rel1 rel3 rel4 A0 E0 A1 E1' E1 eq_refl).
      * cbn [c n_sim_ids w w_gens]. destruct Lsim as (y & Y1 & Y2). destruct y; try contradiction. eapply sure_ids. exact Y1.
      * cbn [c n_sim_ids w w_gens]. destruct Lsim as (y & Y1 & Y2). destruct y; try contradiction. intros X. inversion X; congruence.
  - eapply (chain_built params w pg sd0 sd1' sd3 sd5 assigned0 assigned1 assigned4 vs sizes rel0 rel1' rel1 rel3 rel4); try eassumption; try reflexivity.
    + eexists. reflexivity.
    + intros name p ids' [X|[X|[X|[X|[]]]]]; injection X as <- <- <-; (split; [reflexivity|]; eexists; split; reflexivity).
    + intros p name r [X|[X|[X|[X|[X|[]]]]]]; injection X as <- <- <-; eexists; split; reflexivity.
    + eexists. split; [reflexivity|exact Rest].
    + intros s judge Ha Hj. eapply fair_law. exact (Hjudge purchases s judge Ha Hj).
  - intros Hstep. constructor.
    + eapply (map_filled w 0 (distro_ids params) (vz 0)); [reflexivity|exact Nd0|]. exists 0. reflexivity.
    + eapply (combine_filled w 2 (dealer_ids params) sizes); [reflexivity|exact Lz|exact Nd1|]. intros v Hv. destruct (Hz v Hv) as (z & Z1 & ->). exists (Z.to_nat z). unfold vnat. rewrite Z2Nat.id by lia. reflexivity.
    + eapply (combine_filled w 1 (snd_agent_ids params) vs (fun _ => True)); [reflexivity|exact Lv|exact Nd2|auto].
    + eexists. split; [reflexivity|]. split; [intros name; reflexivity|].
      intros name a [X|[X|[X|[X|[]]]]]; injection X as <- <-; (split; [eexists; split; [reflexivity|constructor]|]; split; discriminate).
    + intros i. exact (chain_suppliers params w pg sd3 sd5 assigned4 rel0 rel1 rel3 rel4 L4 I4 E4 eq_refl i).
    + intros l Hl. apply in_app_iff in Hl as [Hl|Hl]; [|apply in_app_iff in Hl as [Hl|Hl]]; revert Hl; apply strings_plain.
    + split; [eapply between_choosable; [reflexivity|exact Bt3]|].
      destruct (chain_facts4 params pg sd5 assigned4 rel4 L4 E4) as (P4 & R4 & W4).
      eapply (between_choosable w 4 rel4 (dealer_ids params) (distro_ids params)); [reflexivity|]. split; [exact R4|]. intros f t q Hq.
      assert (X : In (f, t) (combine (dealer_ids params) assigned4)) by (eapply Permutation_in; [exact P4|]; change (f, t) with (fst (f, t, q)); now apply in_map).
      split; [eapply in_combine_l; exact X|]. split; [apply I4; eapply in_combine_r; exact X|exact (W4 _ _ _ Hq)].
    + exists rel1. split; [reflexivity|]. exact (proj2 (proj2 (chain_facts1 pg sd1' assigned1 rel1' rel1 E1' E1))).
    + split; [eapply sure_ids; exact Eids|]. split.
      { destruct Lt as (y & Y1 & Y2). destruct y; try contradiction. eapply sure_oracle. exact Y1. }
      split; eapply const_gives; [exact Lg|exact Lr].
    + intros a s judge Ha Hj. eapply uniform_number. exact (Hjudge a s judge Ha Hj).
    + eexists. split; [reflexivity|exact Hol].
    + intros a s Ha.
      assert (X : planned s /\ st_tgen s < length tgens9).
      { cbn [length] in *. destruct a as [|[|[|[|[|[|a]]]]]]; cbn [nth_error w w_stories] in Ha; [| | | | | |destruct a; discriminate]; injection Ha as <-; (split; [apply planned_ops; assumption|cbn [st_tgen with_ops]; lia]). }
      destruct X as [X1 X2]. destruct (nth_error tgens9 (st_tgen s)) as [gt|] eqn:Et; [eapply planned_scheduled; [exact X1|exact Et]|]. apply nth_error_None in Et. lia.
    + exact Hstep.
  - split.
    + intros n m a (po & P1 & P2) (po' & P3 & P4). rewrite P1 in P3. injection P3 as <-. cbn [c n_reviews w w_pops nth_error] in P1. injection P1 as <-. cbn [p_attrs] in P2, P4.
      apply dget_In in P2. apply dget_In in P4. cbn in P2, P4.
      destruct P2 as [P2|[P2|[P2|[P2|[]]]]]; destruct P4 as [P4|[P4|[P4|[P4|[]]]]]; congruence.
    + intros name column [X|[X|[X|[X|[]]]]]; injection X as <- <-; eexists; (split; [eexists; split; reflexivity|]); (split; [eexists; split; [reflexivity|constructor]|discriminate]).
  - split; [exact Eids|]. intros a s o Ha Ho Hch.
    pose proof (law_differs _ _ _ _ _ _ _ Eids Lg I) as N1. pose proof (law_differs _ _ _ _ _ _ _ Eids Lr I) as N2. pose proof (law_differs _ _ _ _ _ _ _ Eids Lt I) as N3.
    assert (N4 : 1 <> ids) by lia.
    assert (A1' : ~ generator_of w 1 (OGenerator ids)) by (eapply leaf_apart; [exact Lsim|exact I|exact N4]).
    assert (A2' : ~ generator_of w going (OGenerator ids)) by (eapply leaf_apart; [exact Lg|exact I|exact N1]).
    assert (A3' : ~ generator_of w returning (OGenerator ids)) by (eapply leaf_apart; [exact Lr|exact I|exact N2]).
    assert (A4' : ~ generator_of w texts (OGenerator ids)) by (eapply leaf_apart; [exact Lt|exact I|exact N3]).
    assert (A5' : forall judge, law gens9 judge (GNumpy NpUniform (random_state pg 1234) None) -> ~ generator_of w judge (OGenerator ids)).
    { intros judge Lj. eapply leaf_apart; [exact Lj|exact I|]. exact (law_differs _ _ _ _ _ _ _ Eids Lj I). }
    destruct a as [|[|[|[|[|[|a]]]]]]; cbn [nth_error w w_stories] in Ha; [| | | | | |destruct a; discriminate]; injection Ha as <-; cbn [st_ops with_ops] in Ho;
      cbn [app snd_restock snd_purchases snd_bulk_purchases snd_start_holidays snd_stops_holidays snd_reviews In] in Ho;
      repeat (destruct Ho as [Ho|Ho]; [subst o; cbn [changes] in Hch; cbn [c n_review_ids n_sim_ids n_going n_returning n_texts] in *;
        repeat match type of Hch with _ \/ _ => destruct Hch as [Hch|Hch] end;
        first [reflexivity|contradiction|discriminate|destruct Hch as [_ Hch]; discriminate|destruct Hch as (? & ? & ? & _ & _ & Hch); discriminate
              |exfalso; revert Hch; apply A5'; assumption|exfalso; destruct Hch as (? & _ & Hch); discriminate]|]); contradiction.
Qed.
