(** Invariants on populations, attributes and relationships of a circus; what every call
    of the library preserves. *)
From Verif Require Import Base BaseFacts Rng RngFacts Utils UtilsFacts Relationship SpecRelationship RelationshipFacts Frame Gens GensProps
  Clock SpecClock ClockProps Attribute AttributeFacts World Story Ops OpsFacts Fs Circus SpecStory StoryFacts StoryExec
  StoryProps SpecOps OpsProps OpsColumns StoryMore StoryStates StoryBack StoryDelay StoryNew SpecWorld WorldProps.
From Coq Require Import Permutation.

(** Each attribute and each relationship has its own table. *)
Definition own_tables (w : world) : Prop :=
  (forall p po n a, nth_error (w_pops w) p = Some po -> dget n (p_attrs po) = Some a -> a < length (w_attrs w)) /\
  (forall p po n r, nth_error (w_pops w) p = Some po -> dget n (p_rels po) = Some r -> r < length (w_rels w)) /\
  (forall p po n q po' m a, nth_error (w_pops w) p = Some po -> nth_error (w_pops w) q = Some po' ->
     dget n (p_attrs po) = Some a -> dget m (p_attrs po') = Some a -> p = q /\ n = m) /\
  (forall p po n q po' m r, nth_error (w_pops w) p = Some po -> nth_error (w_pops w) q = Some po' ->
     dget n (p_rels po) = Some r -> dget m (p_rels po') = Some r -> p = q /\ n = m) /\
  (forall p po, nth_error (w_pops w) p = Some po -> NoDup (dkeys (p_attrs po)) /\ NoDup (dkeys (p_rels po))).

(** Populations only grow, and their recorded size never changes. *)
Definition pops_grow (w w' : world) : Prop :=
  forall p po, nth_error (w_pops w) p = Some po ->
    exists po', nth_error (w_pops w') p = Some po' /\ p_size po' = p_size po /\ incl (p_ids po) (p_ids po').

Definition kept2 (w w' : world) : Prop := (own_tables w -> own_tables w') /\ pops_grow w w'.

Lemma grow_refl w : pops_grow w w.
Proof. intros p po H. exists po. split; [exact H|]. split; [reflexivity|apply incl_refl]. Qed.
Lemma grow_trans a b c : pops_grow a b -> pops_grow b c -> pops_grow a c.
Proof.
  intros H1 H2 p po H. destruct (H1 _ _ H) as (po1 & E1 & S1 & I1). destruct (H2 _ _ E1) as (po2 & E2 & S2 & I2).
  exists po2. split; [exact E2|]. split; [congruence|eapply incl_tran; eauto].
Qed.
Lemma k2_refl w : kept2 w w. Proof. split; [auto|apply grow_refl]. Qed.
Lemma k2_trans a b c : kept2 a b -> kept2 b c -> kept2 a c.
Proof. intros [A1 A2] [B1 B2]. split; [auto|eapply grow_trans; eauto]. Qed.
Lemma k2_same w w' : w_pops w' = w_pops w -> length (w_attrs w') = length (w_attrs w) ->
  length (w_rels w') = length (w_rels w) -> kept2 w w'.
Proof.
  intros E1 E2 E3. split.
  - unfold own_tables. rewrite E1, E2, E3. auto.
  - intros p po H. exists po. rewrite E1. split; [exact H|]. split; [reflexivity|apply incl_refl].
Qed.
Lemma k2_rel w i r r' : nth_error (w_rels w) i = Some r -> rel_step r r' ->
  kept2 w (set_rels (set_nth i r' (w_rels w)) w).
Proof. intros _ _. apply k2_same; [reflexivity|reflexivity|]. apply set_nth_length. Qed.
Lemma k2_attr w i t t' : nth_error (w_attrs w) i = Some t -> attr_step t t' ->
  kept2 w (set_attrs (set_nth i t' (w_attrs w)) w).
Proof. intros _ _. apply k2_same; [reflexivity| |reflexivity]. apply set_nth_length. Qed.

(** the populations after writing one of them *)
Lemma nth_put_pop {A} i j (x : A) l y : nth_error (set_nth i x l) j = Some y ->
  (i = j /\ y = x) \/ (i <> j /\ nth_error l j = Some y).
Proof.
  rewrite nth_error_set_nth. destruct (Nat.eqb_spec i j) as [E|N]; [|auto].
  destruct (nth_error l j); [|discriminate]. intros [= <-]. auto.
Qed.
Lemma grow_put w i p p' : nth_error (w_pops w) i = Some p -> p_size p' = p_size p -> incl (p_ids p) (p_ids p') ->
  pops_grow w (set_pops (set_nth i p' (w_pops w)) w).
Proof.
  intros Hp Es Hi j po H. cbn. rewrite nth_error_set_nth. destruct (Nat.eqb_spec i j) as [<-|N].
  - rewrite Hp. rewrite Hp in H. injection H as <-. exists p'. auto.
  - exists po. split; [exact H|]. split; [reflexivity|apply incl_refl].
Qed.
Lemma k2_put w i p p' : nth_error (w_pops w) i = Some p -> p_size p' = p_size p -> incl (p_ids p) (p_ids p') ->
  p_attrs p' = p_attrs p -> p_rels p' = p_rels p -> kept2 w (set_pops (set_nth i p' (w_pops w)) w).
Proof.
  intros Hp Es Hi Ea Er. split; [|now apply grow_put with p].
  assert (K : forall j po, nth_error (set_nth i p' (w_pops w)) j = Some po ->
    exists po0, nth_error (w_pops w) j = Some po0 /\ p_attrs po = p_attrs po0 /\ p_rels po = p_rels po0).
  { intros j po H. apply nth_put_pop in H as [[<- ->]|[N H]]; [exists p; auto|exists po; auto]. }
  intros (H1 & H2 & H3 & H4 & H5). unfold own_tables. cbn [w_pops w_attrs w_rels set_pops]. split; [|split; [|split; [|split]]].
  - intros j po n a H D. apply K in H as (po0 & H & E1 & _). rewrite E1 in D. eauto.
  - intros j po n a H D. apply K in H as (po0 & H & _ & E1). rewrite E1 in D. eauto.
  - intros j po n k po' m a H H' D D'. apply K in H as (po0 & H & E1 & _). apply K in H' as (po0' & H' & E1' & _).
    rewrite E1 in D. rewrite E1' in D'. eapply H3; eauto.
  - intros j po n k po' m a H H' D D'. apply K in H as (po0 & H & _ & E1). apply K in H' as (po0' & H' & _ & E1').
    rewrite E1 in D. rewrite E1' in D'. eapply H4; eauto.
  - intros j po H. apply K in H as (po0 & H & -> & ->). eauto.
Qed.
Lemma k2_pop w i p p' : nth_error (w_pops w) i = Some p -> pop_step p p' ->
  kept2 w (set_pops (set_nth i p' (w_pops w)) w).
Proof.
  intros Hp St. destruct St as [l Nd]. apply (k2_put w i p); try reflexivity; [exact Hp|].
  intros x Hx. apply index_union_In. now left.
Qed.

Lemma force_k2 a ids : keeps kept2 (story_force a ids).
Proof.
  intros w. unfold story_force, bindM, deref. destruct (nth_error (w_stories w) a) as [s|]; [|apply k2_refl].
  destruct (force_act_next s ids) as [r s']. now apply k2_same.
Qed.
Lemma reset_k2 a ids : keeps kept2 (story_reset a ids).
Proof.
  intros w. unfold story_reset, bindM, deref, lift. destruct (nth_error (w_stories w) a) as [s|]; [|apply k2_refl].
  destruct (nth_error (w_tgens w) (st_tgen s)) as [g|]; [|apply k2_refl].
  destruct (reset_timers s g ids) as [[s' g']|e]; now apply k2_same.
Qed.
Lemma transit_k2 a ids st : keeps kept2 (story_transit a ids st).
Proof.
  intros w. unfold story_transit, bindM, deref, lift. destruct (nth_error (w_stories w) a) as [s|]; [|apply k2_refl].
  destruct (transit_to_state s ids st) as [s'|e]; now apply k2_same.
Qed.
Lemma tick_k2 a ids : keeps kept2 (story_tick a ids).
Proof.
  intros w. unfold story_tick, bindM, deref, lift. destruct (nth_error (w_stories w) a) as [s|]; [|apply k2_refl].
  destruct (timer_tick s ids) as [s'|e]; now apply k2_same.
Qed.

Lemma chain_k2 ops d : keeps kept2 (run_chain ops d).
Proof.
  apply (run_chain_keeps kept2 (fun _ => True) (fun _ => True) (fun _ => True)); auto.
  - exact k2_refl.
  - exact k2_trans.
  - intros; now apply k2_same.
  - intros; now apply k2_same.
  - intros; now apply k2_same.
  - exact k2_rel.
  - exact k2_attr.
  - exact k2_pop.
  - intros; apply force_k2.
  - intros; apply reset_k2.
  - intros; apply transit_k2.
Qed.

Ltac kbind2 := apply (keeps_bind kept2); [exact k2_trans| |].

Lemma execute_k2 a : keeps kept2 (execute a).
Proof.
  unfold execute. kbind2; [apply (keeps_deref kept2 k2_refl)|]. intros s.
  kbind2; [intros w; now apply k2_same|]. intros _. destruct (active_inactive_ids s) as [act inact].
  kbind2.
  - destruct act; [apply (keeps_ret kept2 k2_refl)|]. kbind2; [apply chain_k2|]. intros [d l].
    kbind2; [|intros; apply (keeps_ret kept2 k2_refl)].
    destruct (st_auto s); [apply reset_k2|apply tick_k2].
  - intros l. kbind2; [apply tick_k2|intros; apply (keeps_ret kept2 k2_refl)].
Qed.

Lemma happen_k2 h w : kept2 w (snd (happen h w)).
Proof.
  destruct h; cbn [happen].
  - pose proof (execute_k2 a w). destruct (execute a w) as [[l|e] w']; exact H.
  - cbn [snd]. unfold increment_clock. destruct (clock_increment _). now apply k2_same.
  - apply force_k2.
  - apply reset_k2.
  - apply transit_k2.
  - apply tick_k2.
Qed.

(** ** Construction *)
Lemma next_seed_k2 : keeps kept2 next_of_seeder.
Proof.
  intros w. unfold next_of_seeder, bindM, get, modify, ret. destruct (next_seed (w_seeder w)). now apply k2_same.
Qed.
Lemma gen_k2 g n : keeps kept2 (generate g n).
Proof.
  intros w. destruct (generate g n w) as [r w'] eqn:E. apply generate_gens in E as (gens & ->). now apply k2_same.
Qed.

(** A new table for the attribute [name] of one population. *)
Lemma k2_new_attr w p po name t : nth_error (w_pops w) p = Some po ->
  kept2 w (set_pops (set_nth p (mkPop (p_ids po) (p_size po) (dset name (length (w_attrs w)) (p_attrs po)) (p_rels po)) (w_pops w))
             (set_attrs (w_attrs w ++ [t]) w)).
Proof.
  intros Hp. split.
  - intros (H1 & H2 & H3 & H4 & H5). unfold own_tables. cbn [w_pops w_attrs w_rels set_pops set_attrs].
    rewrite app_length. cbn [length].
    assert (K : forall j po1 n a, nth_error (set_nth p (mkPop (p_ids po) (p_size po) (dset name (length (w_attrs w)) (p_attrs po)) (p_rels po)) (w_pops w)) j = Some po1 ->
       dget n (p_attrs po1) = Some a -> (j = p /\ n = name /\ a = length (w_attrs w)) \/
       exists po0, nth_error (w_pops w) j = Some po0 /\ dget n (p_attrs po0) = Some a /\ a < length (w_attrs w)).
    { intros j po1 n a H D. apply nth_put_pop in H as [[<- ->]|[N H]].
      - cbn [p_attrs] in D. rewrite dget_dset in D. destruct (keqb_spec n name) as [E|N].
        + injection D as <-. auto.
        + right. exists po. split; [exact Hp|]. split; [exact D|]. eapply H1; eauto.
      - right. exists po1. split; [exact H|]. split; [exact D|]. eapply H1; eauto. }
    assert (KR : forall j po1, nth_error (set_nth p (mkPop (p_ids po) (p_size po) (dset name (length (w_attrs w)) (p_attrs po)) (p_rels po)) (w_pops w)) j = Some po1 ->
       exists po0, nth_error (w_pops w) j = Some po0 /\ p_rels po1 = p_rels po0).
    { intros j po1 H. apply nth_put_pop in H as [[<- ->]|[N H]]; [exists po; auto|exists po1; auto]. }
    split; [|split; [|split; [|split]]].
    + intros j po1 n a H D. destruct (K _ _ _ _ H D) as [(_ & _ & ->)|(po0 & _ & _ & L)]; lia.
    + intros j po1 n a H D. apply KR in H as (po0 & H & E). rewrite E in D. eauto.
    + intros j po1 n k po2 m a H H' D D'. destruct (K _ _ _ _ H D) as [(-> & -> & ->)|(po0 & G & D1 & L)];
      destruct (K _ _ _ _ H' D') as [(-> & -> & E')|(po0' & G' & D1' & L')]; try lia; auto. eapply H3; eauto.
    + intros j po1 n k po2 m a H H' D D'. apply KR in H as (po0 & H & E). apply KR in H' as (po0' & H' & E').
      rewrite E in D. rewrite E' in D'. eapply H4; eauto.
    + intros j po1 H. apply nth_put_pop in H as [[<- ->]|[N H]]; [|eauto]. destruct (H5 _ _ Hp). split; [now apply dset_NoDup|assumption].
  - apply (grow_put (set_attrs (w_attrs w ++ [t]) w) p po); [exact Hp|reflexivity|apply incl_refl].
Qed.
Lemma k2_new_rel w p po name r : nth_error (w_pops w) p = Some po ->
  kept2 w (set_pops (set_nth p (mkPop (p_ids po) (p_size po) (p_attrs po) (dset name (length (w_rels w)) (p_rels po))) (w_pops w))
             (set_rels (w_rels w ++ [r]) w)).
Proof.
  intros Hp. split.
  - intros (H1 & H2 & H3 & H4 & H5). unfold own_tables. cbn [w_pops w_attrs w_rels set_pops set_rels].
    rewrite app_length. cbn [length].
    assert (K : forall j po1 n a, nth_error (set_nth p (mkPop (p_ids po) (p_size po) (p_attrs po) (dset name (length (w_rels w)) (p_rels po))) (w_pops w)) j = Some po1 ->
       dget n (p_rels po1) = Some a -> (j = p /\ n = name /\ a = length (w_rels w)) \/
       exists po0, nth_error (w_pops w) j = Some po0 /\ dget n (p_rels po0) = Some a /\ a < length (w_rels w)).
    { intros j po1 n a H D. apply nth_put_pop in H as [[<- ->]|[N H]].
      - cbn [p_rels] in D. rewrite dget_dset in D. destruct (keqb_spec n name) as [E|N].
        + injection D as <-. auto.
        + right. exists po. split; [exact Hp|]. split; [exact D|]. eapply H2; eauto.
      - right. exists po1. split; [exact H|]. split; [exact D|]. eapply H2; eauto. }
    assert (KR : forall j po1, nth_error (set_nth p (mkPop (p_ids po) (p_size po) (p_attrs po) (dset name (length (w_rels w)) (p_rels po))) (w_pops w)) j = Some po1 ->
       exists po0, nth_error (w_pops w) j = Some po0 /\ p_attrs po1 = p_attrs po0).
    { intros j po1 H. apply nth_put_pop in H as [[<- ->]|[N H]]; [exists po; auto|exists po1; auto]. }
    split; [|split; [|split; [|split]]].
    + intros j po1 n a H D. apply KR in H as (po0 & H & E). rewrite E in D. eauto.
    + intros j po1 n a H D. destruct (K _ _ _ _ H D) as [(_ & _ & ->)|(po0 & _ & _ & L)]; lia.
    + intros j po1 n k po2 m a H H' D D'. apply KR in H as (po0 & H & E). apply KR in H' as (po0' & H' & E').
      rewrite E in D. rewrite E' in D'. eapply H3; eauto.
    + intros j po1 n k po2 m a H H' D D'. destruct (K _ _ _ _ H D) as [(-> & -> & ->)|(po0 & G & D1 & L)];
      destruct (K _ _ _ _ H' D') as [(-> & -> & E')|(po0' & G' & D1' & L')]; try lia; auto. eapply H4; eauto.
    + intros j po1 H. apply nth_put_pop in H as [[<- ->]|[N H]]; [|eauto]. destruct (H5 _ _ Hp). split; [assumption|now apply dset_NoDup].
  - apply (grow_put (set_rels (w_rels w ++ [r]) w) p po); [exact Hp|reflexivity|apply incl_refl].
Qed.

(** The seed of a new relationship changes the seeder only. *)
Lemma rel_seed_world (seed : option N) w : exists r sd,
  (match seed with Some (Npos q) => ret (Npos q) | _ => next_of_seeder end) w = (Ok r, set_seeder sd w).
Proof.
  destruct seed as [[|q]|].
  2: { exists (Npos q), (w_seeder w). unfold ret. f_equal. now destruct w. }
  all: unfold next_of_seeder, bindM, get, modify, ret; destruct (next_seed (w_seeder w)) as [x sd]; now exists x, sd.
Qed.
Lemma create_rel_world p name seed w po : nth_error (w_pops w) p = Some po ->
  exists s sd, create_relationship p name seed w =
    (Ok (length (w_rels w)),
     set_pops (set_nth p (mkPop (p_ids po) (p_size po) (p_attrs po) (dset name (length (w_rels w)) (p_rels po))) (w_pops w))
       (set_rels (w_rels w ++ [new_relationship (w_prng w) s]) (set_seeder sd w))).
Proof.
  intros Hp. unfold create_relationship, bindM at 1, deref. rewrite Hp.
  destruct (rel_seed_world seed w) as (s & sd & E). exists s, sd. unfold bindM at 1. rewrite E. reflexivity.
Qed.
Lemma create_rel_k2 p name seed : keeps kept2 (create_relationship p name seed).
Proof.
  intros w. destruct (nth_error (w_pops w) p) as [po|] eqn:Hp.
  - destruct (create_rel_world p name seed w po Hp) as (s & sd & ->). cbn [snd].
    apply k2_trans with (set_seeder sd w); [now apply k2_same|]. exact (k2_new_rel (set_seeder sd w) p po name _ Hp).
  - unfold create_relationship, bindM, deref. rewrite Hp. apply k2_refl.
Qed.

Lemma alloc_k2 l n : keeps kept2 (alloc_pop l n).
Proof.
  intros w. unfold alloc_pop. destruct (nodupb l) eqn:E; [|apply k2_refl]. cbn [negb]. unfold bindM, get, modify, ret.
  cbn [snd]. split.
  - assert (K : forall j po, nth_error (w_pops w ++ [mkPop l n [] []]) j = Some po ->
      nth_error (w_pops w) j = Some po \/ (p_attrs po = [] /\ p_rels po = [])).
    { intros j po H. destruct (Nat.lt_ge_cases j (length (w_pops w))) as [L|L].
      - rewrite nth_error_app1 in H by exact L. auto.
      - rewrite nth_error_app2 in H by exact L. destruct (j - length (w_pops w)); [|now destruct n0].
        injection H as <-. auto. }
    intros (H1 & H2 & H3 & H4 & H5). unfold own_tables. cbn [w_pops w_attrs w_rels set_pops]. split; [|split; [|split; [|split]]].
    + intros j po nm a H D. apply K in H as [H|[Ea Er]]; [eauto|]. rewrite Ea in D. discriminate.
    + intros j po nm a H D. apply K in H as [H|[Ea Er]]; [eauto|]. rewrite Er in D. discriminate.
    + intros j po nm k po' m a H H' D D'. apply K in H as [H|[Ea Er]]; [|rewrite Ea in D; discriminate].
      apply K in H' as [H'|[Ea Er]]; [|rewrite Ea in D'; discriminate]. eapply H3; eauto.
    + intros j po nm k po' m a H H' D D'. apply K in H as [H|[Ea Er]]; [|rewrite Er in D; discriminate].
      apply K in H' as [H'|[Ea Er]]; [|rewrite Er in D'; discriminate]. eapply H4; eauto.
    + intros j po H. apply K in H as [H|[-> ->]]; [eauto|]. split; constructor.
  - intros p po H. exists po. cbn. split; [|split; [reflexivity|apply incl_refl]].
    rewrite nth_error_app1; [exact H|]. apply nth_error_Some. congruence.
Qed.

Lemma create_pop_k2 n g s i : keeps kept2 (create_population n g s i).
Proof.
  unfold create_population. kbind2; [apply (keeps_get kept2 k2_refl)|]. intros names.
  destruct (dmem n names); [apply (keeps_raise kept2 k2_refl)|]. kbind2.
  - unfold new_population. destruct i as [l|].
    + destruct g; [apply (keeps_raise kept2 k2_refl)|]. destruct s; [apply (keeps_raise kept2 k2_refl)|apply alloc_k2].
    + destruct s as [[|z|z]|]; try apply (keeps_raise kept2 k2_refl); [apply alloc_k2| |];
      (destruct g; [kbind2; [apply gen_k2|intros; apply alloc_k2]|apply (keeps_raise kept2 k2_refl)]).
  - intros p. kbind2; [apply (keeps_get kept2 k2_refl)|]. intros names'.
    kbind2; [intros w; now apply k2_same|intros; apply (keeps_ret kept2 k2_refl)].
Qed.

Lemma rel_add_k2 r f t : keeps kept2 (rel_add r f t).
Proof. apply (keeps_rel_add kept2); [exact k2_refl|exact k2_trans|exact k2_rel]. Qed.
Lemma rel_addg_k2 r f t : keeps kept2 (rel_add_grouped r f t).
Proof. apply (keeps_rel_add_grouped kept2); [exact k2_refl|exact k2_trans|exact k2_rel]. Qed.
Lemma update_attr_k2 a s : keeps kept2 (update_attr a s).
Proof. apply (keeps_update_attr kept2); [exact k2_refl|exact k2_trans|exact k2_attr]. Qed.
Lemma pop_update_k2 p d : keeps kept2 (pop_update p d).
Proof. apply (keeps_pop_update kept2); [exact k2_refl|exact k2_trans|exact k2_attr|exact k2_pop]. Qed.

Lemma stock_k2 p n g k : keeps kept2 (create_stock_relationship p n g k).
Proof.
  unfold create_stock_relationship. kbind2; [apply create_rel_k2|]. intros r.
  kbind2; [apply (keeps_deref kept2 k2_refl)|]. intros po. kbind2; [apply gen_k2|]. intros items.
  kbind2; [apply next_seed_k2|]. intros seed. kbind2; [apply (keeps_get kept2 k2_refl)|]. intros pr.
  kbind2; [apply (keeps_lift kept2 k2_refl)|]. intros [x y]. apply rel_add_k2.
Qed.
Lemma stockg_k2 p n g : keeps kept2 (create_stock_relationship_grp p n g).
Proof.
  unfold create_stock_relationship_grp. kbind2; [apply create_rel_k2|]. intros r.
  kbind2; [apply (keeps_deref kept2 k2_refl)|]. intros po. kbind2; [apply gen_k2|]. intros items.
  kbind2; [apply (keeps_lift kept2 k2_refl)|]. intros x. apply rel_addg_k2.
Qed.

Lemma attr_table_k2 p v g r : keeps kept2 (attr_table p v g r).
Proof.
  unfold attr_table. kbind2; [apply (keeps_deref kept2 k2_refl)|]. intros po.
  destruct (p_size po =? 0)%Z; [apply (keeps_ret kept2 k2_refl)|]. destruct r as [n|].
  - kbind2; [unfold get_relationship; kbind2; [apply (keeps_deref kept2 k2_refl)|intros; apply (keeps_lift kept2 k2_refl)]|].
    intros r. kbind2; [apply (keeps_deref kept2 k2_refl)|].
    intros rel. kbind2; [apply (keeps_lift kept2 k2_refl)|].
    intros [rows rel']. kbind2; [|intros; apply (keeps_ret kept2 k2_refl)].
    intros w. apply k2_same; [reflexivity|reflexivity|]. apply set_nth_length.
  - destruct v, g; try apply (keeps_raise kept2 k2_refl); [apply (keeps_lift kept2 k2_refl)|].
    kbind2; [apply gen_k2|intros; apply (keeps_lift kept2 k2_refl)].
Qed.
Lemma create_attr_k2 p n v g r : keeps kept2 (create_attribute p n v g r).
Proof.
  unfold create_attribute. kbind2; [apply attr_table_k2|]. intros t. intros w.
  apply (keeps_bind_dep kept2); [exact k2_trans|apply (keeps_deref kept2 k2_refl)|].
  intros po w1 E. apply deref_ok in E as [Hp ->]. exact (k2_new_attr w p po n t Hp).
Qed.
Lemma select_member_k2 p n x : keeps kept2 (pop_select_one p n x).
Proof.
  unfold pop_select_one. kbind2; [apply (keeps_deref kept2 k2_refl)|]. intros po. kbind2.
  - destruct x; [|apply (keeps_ret kept2 k2_refl)]. kbind2.
    + unfold get_attribute_values, get_attribute. kbind2; [kbind2; [apply (keeps_deref kept2 k2_refl)|intros; apply (keeps_lift kept2 k2_refl)]|].
      intros a. kbind2; [apply (keeps_deref kept2 k2_refl)|intros; apply (keeps_lift kept2 k2_refl)].
    + intros t. kbind2; [apply (keeps_lift kept2 k2_refl)|intros; apply (keeps_ret kept2 k2_refl)].
  - intros ws. kbind2; [apply next_seed_k2|]. intros seed. kbind2; [apply (keeps_get kept2 k2_refl)|]. intros g.
    kbind2; [apply (keeps_get kept2 k2_refl)|]. intros gens.
    kbind2; [intros w; now apply k2_same|intros; apply (keeps_ret kept2 k2_refl)].
Qed.

Lemma all_params_k2 ids size states : keeps kept2 (all_params ids size states).
Proof. intros w. destruct (all_params_world ids size states w) as (g & ->). now apply k2_same. Qed.
Lemma create_story_k2 o n p f d s t b : keeps kept2 (create_story o n p f d s t b).
Proof.
  unfold create_story. kbind2; [apply (keeps_get kept2 k2_refl)|]. intros stories.
  destruct (find_story n stories 0); [apply (keeps_raise kept2 k2_refl)|]. kbind2.
  - unfold new_story. kbind2; [apply (keeps_deref kept2 k2_refl)|]. intros po. kbind2.
    + destruct s; [apply (keeps_lift kept2 k2_refl)|apply (keeps_ret kept2 k2_refl)].
    + intros m. kbind2; [apply all_params_k2|]. intros cols. cbv zeta. destruct b; [|apply (keeps_ret kept2 k2_refl)].
      kbind2; [apply (keeps_deref kept2 k2_refl)|]. intros g. kbind2; [apply (keeps_lift kept2 k2_refl)|].
      intros [s' g']. kbind2; [intros w1; now apply k2_same|intros; apply (keeps_ret kept2 k2_refl)].
  - intros st. kbind2; [apply (keeps_get kept2 k2_refl)|]. intros l.
    kbind2; [intros w; now apply k2_same|intros; apply (keeps_ret kept2 k2_refl)].
Qed.

Lemma set_ops_k2 a ops : keeps kept2 (set_operations a ops).
Proof.
  intros w. unfold set_operations, bindM, deref. destruct (nth_error (w_stories w) a) as [s|] eqn:E; [now apply k2_same|apply k2_refl].
Qed.
Lemma append_ops_k2 a ops : keeps kept2 (append_operations a ops).
Proof.
  intros w. unfold append_operations, bindM, deref. destruct (nth_error (w_stories w) a) as [s|] eqn:E; [now apply k2_same|apply k2_refl].
Qed.
Lemma on_rel_k2 r f w : kept2 w (on_rel r f w).
Proof.
  unfold on_rel. destruct (nth_error (w_rels w) r) as [rel|]; [|apply k2_refl].
  destruct (f rel); [|apply k2_refl]. apply k2_same; [reflexivity|reflexivity|apply set_nth_length].
Qed.
Lemma on_attr_k2 a f w : kept2 w (on_attr a f w).
Proof.
  unfold on_attr. destruct (nth_error (w_attrs w) a) as [t|]; [|apply k2_refl].
  destruct (f t); [|apply k2_refl]. apply k2_same; [reflexivity|apply set_nth_length|reflexivity].
Qed.

Lemma on_dependent_k2 g obs w : kept2 w (on_dependent g obs w).
Proof.
  unfold on_dependent. destruct (nth_error (w_dgens w) g) as [d|]; [|apply k2_refl].
  destruct (dgen_generate (w_gens w) d obs) as [[[vs d'] gens]|] eqn:Ed; [|apply k2_refl]. now apply k2_same.
Qed.
Lemma on_timer_k2 t obs w : kept2 w (on_timer t obs w).
Proof.
  unfold on_timer. destruct (nth_error (w_tgens w) t) as [y|]; [|apply k2_refl].
  destruct (tgen_generate y obs) as [[ts y']|]; [|apply k2_refl]. now apply k2_same.
Qed.

Lemma call_k2 c w : kept2 w (after_call c w).
Proof.
  destruct c; cbn [after_call].
  - now apply k2_same.
  - now apply k2_same.
  - destruct registered; now apply k2_same.
  - apply create_pop_k2.
  - apply create_rel_k2.
  - apply stock_k2.
  - apply stockg_k2.
  - apply create_attr_k2.
  - apply pop_update_k2.
  - apply select_member_k2.
  - apply update_attr_k2.
  - apply rel_add_k2.
  - apply rel_addg_k2.
  - apply on_rel_k2.
  - apply on_rel_k2.
  - apply on_rel_k2.
  - apply on_rel_k2.
  - apply on_attr_k2.
  - apply on_attr_k2.
  - apply create_story_k2.
  - apply set_ops_k2.
  - apply append_ops_k2.
  - unfold ignore, attach_generator, bindM, get. destruct (dmem id (w_gen_names w)); now apply k2_same.
  - apply gen_k2.
  - apply on_dependent_k2.
  - apply on_timer_k2.
  - apply next_seed_k2.
  - apply happen_k2.
Qed.

Lemma built_own g w : built g w -> own_tables w.
Proof.
  induction 1 as [seed start step|c w Hc _ IH].
  - unfold new_circus. destruct (next_seed _). unfold own_tables. cbn. split; [|split; [|split; [|split]]]; intros [|p]; discriminate.
  - now apply call_k2.
Qed.
