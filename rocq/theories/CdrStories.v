(** Creating stories whose generators give numbers; social networks: the worlds after. *)
From Verif Require Import Base BaseFacts Rng RngFacts Utils UtilsFacts Relationship RelationshipFacts SpecRelationship RelationshipProps
  Frame Gens GensProps Clock SpecClock ClockProps Attribute AttributeFacts World Story Ops OpsFacts Circus SpecStory StoryFacts StoryNew SpecOps SpecWorld SpecPopulation GensKept PopFacts PopMore SpecSetup SetupProps
  SpecSafe SafeOps Geography GeographyRun GeographyBuild SpecComponents Components ComponentsFacts.
From Coq Require Import Permutation Lqa.
Local Open Scope nat_scope.

(** A generator of numbers that asks no other one. *)
Definition number_law (x : gen) : Prop :=
  match x with
  | GConst (VNum _) => True
  | GNumpy (NpOther _) _ None => True
  | GNumpy (NpChoice a None) _ None => a <> [] /\ Forall (fun v => exists q, v = VNum q) a
  | GPareto _ false _ _ => True
  | _ => False
  end.
Definition numeric_gen (h : list gen) (i : nat) : Prop := exists x, nth_error h i = Some x /\ number_law x.
Lemma number_law_same x x' : same_gen x x' -> number_law x -> number_law x'.
Proof.
  intros E L. destruct x as [v| |m st b|xmin fi lomax st| | | | |]; try contradiction; destruct x' as [v'| |m' st' b'|xmin' fi' lomax' st'| | | | |]; try contradiction.
  - cbn in E. now subst v'.
  - destruct E as [E1 E2]. subst m'. cbn in L |- *. destruct m as [|a p|]; try contradiction; [destruct p; [contradiction|]|]; (destruct b; [contradiction|]); now rewrite (proj1 E2 eq_refl).
  - destruct E as (_ & <- & _). exact L.
Qed.
Lemma numeric_kept h h' i : gens_kept h h' -> numeric_gen h i -> numeric_gen h' i.
Proof. intros K (x & E & L). destruct (K _ _ E) as (x' & E' & S). exists x'. split; [exact E'|]. eapply number_law_same; eauto. Qed.

Lemma choice_law_step a st n : a <> [] -> Forall (fun v => exists q, v = VNum q) a ->
  exists vs x', gen_step (GNumpy (NpChoice a None) st None) (Z.of_nat n) = Ok (vs, x') /\ length vs = n /\ Forall (fun v => exists q, v = VNum q) vs.
Proof.
  intros Ha Fa. cbn [gen_step]. unfold np_generate. rewrite (proj2 (Z.ltb_ge _ _)) by lia. rewrite Nat2Z.id.
  destruct (choice (length a) n st) as [[idx st']|e] eqn:Ec.
  2:{ unfold choice in Ec. destruct (Nat.eqb_spec (length a) 0) as [X|X]; [now destruct a|]. discriminate. }
  destruct (choice_spec _ _ _ _ _ Ec) as [Lc Fc]. destruct (take_ok idx a Fc) as (vs & Et).
  cbn [bind]. rewrite Et. cbn [bind]. eexists _, _. split; [reflexivity|]. split; [rewrite (take_length _ _ _ Et); exact Lc|].
  apply Forall_forall. intros v Hv. rewrite Forall_forall in Fa. apply Fa. eapply take_In; eauto.
Qed.
Lemma law_step x n : number_law x -> exists vs x', gen_step x (Z.of_nat n) = Ok (vs, x') /\ length vs = n /\ Forall (fun v => exists q, v = VNum q) vs.
Proof.
  destruct x as [v| |meth st b|xmin fi lomax st| | | | |]; try contradiction.
  - destruct v as [| |q| |]; try contradiction. intros _. exists (repeat (VNum q) n), (GConst (VNum q)). cbn [gen_step]. rewrite Nat2Z.id. split; [reflexivity|]. split; [apply repeat_length|].
    apply Forall_forall. intros v Hv. apply repeat_spec in Hv. eauto.
  - destruct meth as [|a p|f]; try contradiction; [destruct p; [contradiction|]; destruct b; [contradiction|]; intros (Ha & Fa); exact (choice_law_step a st n Ha Fa)|].
    destruct b; [contradiction|]. intros _. destruct (other_step f st (Z.of_nat n) ltac:(lia)) as (vs & st' & L & F & E). exists vs. eexists. split; [exact E|]. split; [lia|].
    eapply Forall_impl; [|exact F]. cbn. intros v (y & ->). eauto.
  - destruct fi; [contradiction|]. intros _. destruct (pareto_step xmin lomax st n) as (xs & st' & L & E). eexists _, _. split; [exact E|]. unfold pareto_values. split; [rewrite !map_length; exact L|].
    apply Forall_forall. intros v Hv. apply in_map_iff in Hv as (q & <- & _). eauto.
Qed.
Lemma numeric_generate h i n : numeric_gen h i -> exists vs h', gen_generate h i (Z.of_nat n) = Ok (vs, h') /\ length vs = n /\ Forall (fun v => exists q, v = VNum q) vs /\ gens_kept h h' /\ length h' = length h.
Proof.
  intros (x & E & L). destruct (law_step x n L) as (vs & x' & Es & Lv & Fv). destruct (nth_error_split _ _ E) as (h1 & h2 & -> & <-).
  exists vs, (h1 ++ x' :: h2). pose proof (leaf_gen h1 x h2 _ _ _ Es) as G. split; [exact G|]. split; [exact Lv|]. split; [exact Fv|]. split; [|now rewrite !app_length].
  unfold gen_generate in G. exact (heap_generate_kept _ _ _ _ _ _ G).
Qed.
Lemma numeric_params ids g w : numeric_gen (w_gens w) (fst g) -> numeric_gen (w_gens w) (snd g) ->
  exists ps gens', state_params ids (Z.of_nat (length ids)) g w = (Ok ps, set_gens gens' w) /\ gens_kept (w_gens w) gens' /\ length gens' = length (w_gens w).
Proof.
  intros H1 H2. destruct (numeric_generate _ _ (length ids) H1) as (v1 & h1 & E1 & L1 & F1 & K1 & M1).
  destruct (numeric_generate _ _ (length ids) (numeric_kept _ _ _ K1 H2)) as (v2 & h2 & E2 & L2 & F2 & K2 & M2).
  assert (X : forall vs, Forall (fun v => exists q, v = VNum q) vs -> exists qs, mapr as_Q vs = Ok qs).
  { induction 1 as [|v vs (q & ->) F (qs & E)]; [exists []; reflexivity|]. exists (this q :: qs). cbn [mapr as_Q bind]. now rewrite E. }
  destruct (X v1 F1) as (q1 & Q1). destruct (X v2 F2) as (q2 & Q2).
  exists (combine q1 q2), h2. split; [|split; [eapply gens_kept_trans; eauto|lia]].
  unfold state_params, generate, bindM, get, lift, modify, ret. rewrite E1. cbn [w_gens set_gens]. rewrite E2, L1, L2, Nat.eqb_refl. cbn [negb orb]. rewrite Q1, Q2. reflexivity.
Qed.
Lemma numeric_all_params ids states : forall w, (forall st ga gb, In (st, (ga, gb)) states -> numeric_gen (w_gens w) ga /\ numeric_gen (w_gens w) gb) ->
  exists cols gens', all_params ids (Z.of_nat (length ids)) states w = (Ok cols, set_gens gens' w) /\ gens_kept (w_gens w) gens' /\ length gens' = length (w_gens w).
Proof.
  induction states as [|[n [ga gb]] states IH]; intros w H; cbn [all_params].
  - exists [], (w_gens w). split; [now rewrite set_gens_same|]. split; [apply gens_kept_refl|reflexivity].
  - destruct (H n ga gb (or_introl eq_refl)) as [Ha Hb]. destruct (numeric_params ids (ga, gb) w Ha Hb) as (ps & g1 & E1 & K1 & L1).
    destruct (IH (set_gens g1 w)) as (cols & g2 & E2 & K2 & L2).
    { intros st x y Hin. cbn [w_gens set_gens]. destruct (H st x y (or_intror Hin)). split; eapply numeric_kept; eauto. }
    exists ((n, ps) :: cols), g2. rewrite (bind_eq _ _ _ _ _ E1), (bind_eq _ _ _ _ _ E2). split; [reflexivity|]. cbn [w_gens set_gens] in K2, L2. split; [eapply gens_kept_trans; eauto|lia].
Qed.

(** The members of a story are distinct, in declared states, and have parameters for all of them. *)
Definition planned (s : story) : Prop :=
  NoDup (st_ids s) /\ In "default"%string (st_states s) /\
  (forall i st r, In (i, (st, r)) (st_timer s) -> In st (st_states s)) /\
  (forall i st p, In i (st_ids s) -> In st (st_states s) -> exists q, declared s p i st = Some q).
Lemma planned_scheduled w s g : planned s -> nth_error (w_tgens w) (st_tgen s) = Some g -> scheduled w s.
Proof. intros (A & B & C & D) E. unfold scheduled. eauto 6. Qed.
Lemma planned_ops s ops : planned s -> planned (with_ops s ops). Proof. intros H. exact H. Qed.

Lemma planned_new name p f t auto ids cols : NoDup ids -> Forall (fun c => length (snd c) = length ids) cols -> In "default"%string (map fst cols) ->
  planned (mkStory name p f t auto [] (map fst cols) (params_table ids cols) (fresh_timer ids) []).
Proof.
  intros Nd F Hd. unfold planned, st_ids. cbn [st_timer st_states].
  assert (Ids : dkeys (fresh_timer ids) = ids) by (unfold dkeys, fresh_timer; rewrite map_map; apply map_id). rewrite Ids.
  split; [exact Nd|]. split; [exact Hd|]. split.
  - intros i st r H. unfold fresh_timer in H. apply in_map_iff in H as (j & [= _ <- _] & _). exact Hd.
  - intros i st q Hi Hst. unfold declared. cbn [st_params]. destruct (In_nth_error _ _ Hi) as (k & Hk). destruct (params_table_nth ids cols k i Hk F) as (states & E & Hs).
    assert (D : dget i (params_table ids cols) = Some states).
    { apply In_dget; [rewrite params_table_keys; exact Nd|]. eapply nth_error_In; exact E. }
    rewrite D. apply in_map_iff in Hst as ([st' vals] & <- & Hc). rewrite Forall_forall in F. pose proof (F _ Hc) as L. cbn in L.
    destruct (nth_error vals k) as [ab|] eqn:Ev; [|apply nth_error_None in Ev; pose proof (proj1 (nth_error_Some ids k) ltac:(congruence)); lia].
    cbn [fst]. destruct (dget st' states) as [z|] eqn:Ed; [cbn; eauto|]. apply dget_None in Ed. exfalso. apply Ed.
    apply (in_map fst states (st', ab)). apply Hs. eauto.
Qed.
Lemma planned_static s s' : static s s' -> (forall i, state_of s' i = state_of s i) -> planned s -> planned s'.
Proof.
  intros (S1&S2&S3&S4&S5&S6&S7&S8&S9) Hst (A & B & C & D). unfold planned. rewrite S6.
  assert (Ids : st_ids s' = st_ids s) by assumption. rewrite Ids. split; [exact A|]. split; [exact B|]. split.
  - intros i st r H. assert (N : NoDup (dkeys (st_timer s'))) by (change (NoDup (st_ids s')); now rewrite Ids).
    pose proof (In_dget _ _ _ N H) as E. specialize (Hst i). unfold state_of in Hst. rewrite E in Hst. cbn in Hst.
    destruct (dget i (st_timer s)) as [[x y]|] eqn:Ed; [|discriminate]. cbn in Hst. injection Hst as ->. apply dget_In in Ed. eauto.
  - intros i st q Hi Hs. unfold declared. rewrite S7. now apply D.
Qed.

Lemma merged_runs (order : list string -> list string) default (d : dict string state_gens) : (forall l, Permutation (order l) l) -> ~ In "default"%string (dkeys d) ->
  exists merged, merge_2_dicts_ord (order (union_keys [("default"%string, default)] d)) None [("default"%string, default)] d = Ok merged.
Proof.
  intros Ho Hd. unfold merge_2_dicts_ord. destruct (SafeGens.mapr_total (fun key => let! v := merged_value None [("default"%string, default)] d key in Ok (key, v)) (order (union_keys [("default"%string, default)] d))) as (m & E & _); [|eauto].
  intros k Hk. apply (Permutation_in _ (Ho _)) in Hk. apply union_keys_In in Hk. unfold merged_value. cbn [dget].
  destruct (keqb_spec k "default"%string) as [->|N].
  - destruct (dget "default"%string d) eqn:E; [|cbn; eauto]. apply dget_In in E. exfalso. apply Hd. change (In (fst ("default"%string, s)) (dkeys d)). now apply in_map.
  - destruct Hk as [[Hk|[]]|Hk]; [cbn in Hk; congruence|]. destruct (dget k d) eqn:E; [cbn; eauto|]. apply dget_None in E. contradiction.
Qed.

(** A story over numbers can be created, and this is the world after. *)
Lemma story_runs order name p f default states t auto w po g :
  (forall l, Permutation (order l) l) -> match states with Some d => NoDup (dkeys d) /\ ~ In "default"%string (dkeys d) | None => True end ->
  nth_error (w_pops w) p = Some po -> p_size po = Z.of_nat (length (p_ids po)) -> NoDup (p_ids po) -> nth_error (w_tgens w) t = Some g ->
  (forall st ga gb, In (st, (ga, gb)) (all_states default states) -> numeric_gen (w_gens w) ga /\ numeric_gen (w_gens w) gb) ->
  ~ In name (map st_name (w_stories w)) ->
  exists s gens' tgens', create_story order name p f default states t auto w =
      (Ok (length (w_stories w)), set_stories (w_stories w ++ [s]) (set_tgens tgens' (set_gens gens' w))) /\
    gens_kept (w_gens w) gens' /\ length gens' = length (w_gens w) /\ length tgens' = length (w_tgens w) /\
    st_name s = name /\ st_field s = f /\ st_ids s = p_ids po /\ st_ops s = [] /\ st_tgen s = t /\ planned s /\
    (forall n, In n (st_states s) <-> In n (map fst (all_states default states))) /\ (forall j, j <> t -> nth_error tgens' j = nth_error (w_tgens w) j).
Proof.
  intros Ho Hd Hp Hsz Nd Ht Hg Hn.
  assert (X : exists merged, (match states with
      | None => ret [("default"%string, default)]
      | Some d => let dd := [("default"%string, default)] in lift (merge_2_dicts_ord (order (union_keys dd d)) None dd d)
      end : M (dict string state_gens)) w = (Ok merged, w)).
  { destruct states as [d|]; [|eexists; reflexivity]. destruct Hd as [_ Hd]. destruct (merged_runs order default d Ho Hd) as (m & E). exists m. cbv zeta. unfold lift. now rewrite E. }
  destruct X as (merged & Em).
  destruct (merged_states order default states w merged w Ho) as (_ & Nm & Pm); [destruct states; tauto|exact Em|].
  destruct (numeric_all_params (p_ids po) merged w) as (cols & gens' & Ec & Kg & Lg).
  { intros st ga gb H. apply (Hg st). now apply (Permutation_in _ Pm). }
  destruct (all_params_gives _ _ _ _ _ _ Ec) as (Kc & Fc & _ & _).
  set (sb := mkStory name p f t auto [] (map fst cols) (params_table (p_ids po) cols) (fresh_timer (p_ids po)) []).
  assert (Hdef : In "default"%string (map fst cols)).
  { rewrite Kc. apply (Permutation_in _ (Permutation_sym (Permutation_map fst Pm))). now left. }
  assert (Pb : planned sb) by (apply planned_new; assumption).
  assert (Ids : st_ids sb = p_ids po) by (unfold sb, st_ids, dkeys, fresh_timer; cbn; rewrite map_map; apply map_id).
  assert (Run : exists s tgens', new_story order name p f default states t auto w = (Ok s, set_tgens tgens' (set_gens gens' w)) /\ length tgens' = length (w_tgens w) /\
            static sb s /\ (forall i, state_of s i = state_of sb i) /\ (forall j, j <> t -> nth_error tgens' j = nth_error (w_tgens w) j)).
  { unfold new_story. rewrite (bind_eq (deref w_pops p) _ w po w) by now apply deref_eq. rewrite (bind_eq _ _ _ _ _ Em). rewrite Hsz, (bind_eq _ _ _ _ _ Ec).
    cbv zeta. rewrite <- Kc. change (map (fun i => (i, ("default"%string, Some (-1)%Z))) (p_ids po)) with (fresh_timer (p_ids po)). fold sb. destruct auto.
    - destruct Pb as (B1 & B2 & B3 & B4). destruct (reset_total sb g None B1 B2 B3 B4 I) as (s & g' & Er).
      destruct (reset_spec _ _ _ _ _ Er) as (S1 & _ & S3 & _). exists s, (set_nth t g' (w_tgens w)).
      rewrite (bind_eq (deref w_tgens t) _ (set_gens gens' w) g (set_gens gens' w)) by (apply deref_eq; exact Ht).
      rewrite (bind_eq (lift (reset_timers sb g None)) _ _ (s, g') (set_gens gens' w)) by (unfold lift; now rewrite Er).
      split; [reflexivity|]. split; [apply set_nth_length|]. split; [exact S1|]. split; [exact S3|]. intros j Hj. apply nth_error_set_nth_neq. congruence.
    - exists sb, (w_tgens w). split; [|split; [reflexivity|]; split; [apply static_refl|split; reflexivity]]. destruct w. reflexivity. }
  destruct Run as (s & tgens' & Er & Lt & St & Hst & Htg).
  exists s, gens', tgens'. split.
  { unfold create_story. rewrite (bind_eq (get w_stories) _ w (w_stories w) w eq_refl). rewrite (proj2 (find_story_In name (w_stories w) 0) Hn). rewrite (bind_eq _ _ _ _ _ Er). reflexivity. }
  split; [exact Kg|]. split; [exact Lg|]. split; [exact Lt|].
  pose proof St as (S1&S2&S3&S4&S5&S6&S7&S8&S9).
  split; [rewrite S1; reflexivity|]. split; [rewrite S3; reflexivity|]. split; [etransitivity; [|exact Ids]; assumption|]. split; [rewrite S8; reflexivity|]. split; [rewrite S4; reflexivity|].
  split; [eapply planned_static; eauto|]. split; [|exact Htg]. intros n. rewrite S6. unfold sb. cbn [st_states]. rewrite Kc. split; apply Permutation_in; [|symmetry]; now apply Permutation_map.
Qed.

(** The social network: the world after. *)
Lemma er_world lomax skip p name degree w po : nth_error (w_pops w) p = Some po -> NoDup (p_ids po) -> p_ids po <> [] ->
  exists rel sd, add_er_social_network lomax skip p name degree w =
      (Ok tt, set_rels (w_rels w ++ [rel]) (set_pops (set_nth p (mkPop (p_ids po) (p_size po) (p_attrs po) (dset name (length (w_rels w)) (p_rels po))) (w_pops w)) (set_seeder sd w))) /\
    reachable rel /\ social_network (p_ids po) rel /\ ((forall x, 0 <= lomax x)%Qc -> forall a b q, In (a, b, q) (stored rel) -> (1 <= q)%Q).
Proof.
  intros Hp N Hne.
  assert (R : exists rel sd, add_er_social_network lomax skip p name degree w =
      (Ok tt, set_rels (w_rels w ++ [rel]) (set_pops (set_nth p (mkPop (p_ids po) (p_size po) (p_attrs po) (dset name (length (w_rels w)) (p_rels po))) (w_pops w)) (set_seeder sd w))) /\ reachable rel).
  { unfold add_er_social_network.
  unfold bindM at 1. destruct (seeder_runs w) as (s1 & sd1 & ->).
  unfold bindM at 1. unfold get at 1. unfold bindM at 1. unfold deref at 1. cbn [w_pops set_seeder w_prng]. rewrite Hp.
  assert (Hl : length (p_ids po) <> 0) by (destruct (p_ids po); [tauto|discriminate]).
  destruct (Nat.eqb_spec (length (p_ids po)) 0) as [|_]; [contradiction|].
  unfold bindM at 1. destruct (seeder_runs (set_seeder sd1 w)) as (s2 & sd2 & ->).
  set (w2 := set_seeder sd2 (set_seeder sd1 w)).
  set (n := length (p_ids po)) in *. set (pr := (degree / inject_Z (Z.of_nat n))%Q).
  unfold bindM at 1. unfold lift at 1. unfold create_er_social_network. fold n.
  destruct (fast_gnp_spec n pr skip (random_state (w_prng w) s2)) as (es & -> & Hg & Hg0 & Hg1). cbn [bind].
  set (pairs := map _ es).
  destruct (named_pairs (p_ids po) es N Hg) as [Nd Hm]. fold pairs in Nd, Hm.
  assert (Hp2 : nth_error (w_pops w2) p = Some po) by exact Hp.
  destruct (create_rel_world p name None w2 po Hp2) as (s & sd & E). unfold bindM at 1. rewrite E. clear E.
  set (w3 := set_pops _ _).
  unfold bindM at 1. unfold lift at 1.
  destruct (gen_step (GPareto 1 false lomax (random_state (w_prng w) s1)) (Z.of_nat (length pairs))) as [[vs g1]|e] eqn:G1;
    [|cbn [gen_step] in G1; destruct (Z.ltb_spec (Z.of_nat (length pairs)) 0) as [X|X]; [lia|]; now destruct (draws _ _ _)].
  destruct (pareto_numbers _ _ _ _ _ G1) as (qs1 & st1 & Q1 & L1 & -> & B1).
  unfold bindM at 1.
  change (w_rels w2) with (w_rels w).
  destruct (rel_add_weighted_runs (w_rels w) (new_relationship (w_prng w2) s) (map fst pairs) (map snd pairs) vs qs1 w3 eq_refl Q1) as (rel1 & E1);
    [rewrite !map_length; lia|rewrite !map_length; lia|].
  rewrite E1.
  destruct (rel_add_weighted_ok (w_rels w) (new_relationship (w_prng w2) s) _ _ _ _ w3 _ eq_refl Q1 E1) as (rel1' & A1 & EQ).
  assert (rel1' = rel1) as ->.
  { apply (f_equal w_rels) in EQ. cbn in EQ. apply app_inj_tail in EQ as [_ EQ]. now symmetry. }
  clear EQ. set (w4 := set_rels _ w3).
  unfold bindM at 1. unfold lift at 1.
  destruct (gen_step (GPareto 1 false lomax st1) (Z.of_nat (length pairs))) as [[vs2 g2]|e] eqn:G2;
    [|cbn [gen_step] in G2; destruct (Z.ltb_spec (Z.of_nat (length pairs)) 0) as [X|X]; [lia|]; now destruct (draws _ _ _)].
  destruct (pareto_numbers _ _ _ _ _ G2) as (qs2 & st2 & Q2 & L2 & -> & B2).
  destruct (rel_add_weighted_runs (w_rels w) rel1 (map snd pairs) (map fst pairs) vs2 qs2 w4 eq_refl Q2) as (rel2 & E2);
    [rewrite !map_length; lia|rewrite !map_length; lia|].
  destruct (rel_add_weighted_ok (w_rels w) rel1 _ _ _ _ w4 _ eq_refl Q2 E2) as (rel2' & A2 & EQ).
  assert (rel2' = rel2) as ->.
  { apply (f_equal w_rels) in EQ. cbn in EQ. apply app_inj_tail in EQ as [_ EQ]. now symmetry. }
  clear EQ. rewrite E2. exists rel2, sd. split; [reflexivity|].
  eapply reach_add; [eapply reach_add; [apply reach_new|exact A1]|exact A2]. }
  destruct R as (rel & sd & E & R). exists rel, sd. split; [exact E|]. split; [exact R|].
  destruct (er_created lomax skip p name degree w po Hp N Hne) as (rel' & w' & E0 & _ & Er & Hs & Hw & _). rewrite E in E0. injection E0 as <-. cbn [w_rels set_rels] in Er.
  apply app_inv_head in Er. injection Er as <-. auto.
Qed.
