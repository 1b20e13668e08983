(** Every call of the library keeps the definition of every generator. *)
From Verif Require Import Base BaseFacts Rng RngFacts Utils UtilsFacts Relationship SpecRelationship RelationshipFacts Frame Gens GensProps
  Clock SpecClock ClockProps Attribute AttributeFacts World Story Ops OpsFacts Fs Circus SpecStory StoryFacts StoryExec
  StoryProps SpecOps OpsProps OpsColumns StoryMore StoryStates StoryBack StoryDelay StoryNew SpecWorld WorldProps PopFacts SpecPopulation.
From Coq Require Import Permutation.

Lemma same_gen_refl g : same_gen g g.
Proof. destruct g; cbn; auto 6. destruct bound; tauto. Qed.
Lemma same_gen_trans a b c : same_gen a b -> same_gen b c -> same_gen a c.
Proof. destruct a, b; cbn; try easy; destruct c; cbn; try easy; intuition congruence. Qed.
Lemma gen_step_same g n vs g' : gen_step g n = Ok (vs, g') -> same_gen g g'.
Proof.
  destruct g; cbn [gen_step]; try easy.
  - now intros [= <- <-].
  - destruct (_ =? _)%Z; [|easy]. now intros [= <- <-].
  - destruct bound; intros H; apply bind_ok in H as ([x s] & _ & E); injection E as <- <-; cbn; split; try reflexivity; easy.
  - destruct (n <? 0)%Z; [easy|]. destruct (draws _ _ _). now intros [= <- <-].
  - now intros [= <- <-].
  - now intros [= <- <-].
  - destruct (n <? 0)%Z; [easy|]. intros H.
    apply bind_ok in H as ([x s] & _ & H). apply bind_ok in H as (y & _ & H). injection H as <- <-. cbn. auto.
Qed.

Lemma gens_kept_refl h : gens_kept h h.
Proof. intros i g H. exists g. split; [exact H|apply same_gen_refl]. Qed.
Lemma gens_kept_trans a b c : gens_kept a b -> gens_kept b c -> gens_kept a c.
Proof.
  intros H1 H2 i g H. destruct (H1 _ _ H) as (g1 & E1 & S1). destruct (H2 _ _ E1) as (g2 & E2 & S2).
  exists g2. split; [exact E2|eapply same_gen_trans; eauto].
Qed.
Lemma gens_kept_app h h' : gens_kept h (h ++ h').
Proof.
  intros i g H. exists g. split; [|apply same_gen_refl]. rewrite nth_error_app1; [exact H|]. apply nth_error_Some. congruence.
Qed.
Lemma heap_generate_kept fuel : forall h i size vs h', heap_generate fuel h i size = Ok (vs, h') -> gens_kept h h'.
Proof.
  induction fuel as [|fuel IH]; intros h i size vs h' E; cbn [heap_generate] in E; [discriminate|].
  destruct (nth_error h i) as [g|] eqn:Hi; [|discriminate].
  assert (D : (let! (vs0, g') := gen_step g size in Ok (vs0, set_nth i g' h)) = Ok (vs, h') -> gens_kept h h').
  { intros E0. apply bind_ok in E0 as ([x g'] & E0 & E1). injection E1 as <- <-.
    intros j gj Hj. rewrite nth_error_set_nth. destruct (Nat.eqb_spec i j) as [Ej|N].
    - subst j. rewrite Hj. exists g'. split; [reflexivity|]. assert (gj = g) by congruence. subst gj. eapply gen_step_same; eauto.
    - exists gj. split; [exact Hj|apply same_gen_refl]. }
  destruct g; try exact (D E).
  - destruct (parent <? i); [|discriminate]. apply bind_ok in E as ([s h1] & E1 & E).
    apply bind_ok in E as (x & _ & E). injection E as <- <-. eauto.
  - destruct (_ && _); [|discriminate]. apply bind_ok in E as ([s h1] & E1 & E).
    apply bind_ok in E as (ns & _ & E). apply bind_ok in E as ([vss h2] & E2 & E).
    injection E as <- <-. eapply heap_calls_inv with (I := gens_kept h); [| |exact E2].
    + cbv beta. intros ha n x hb Ha Hb. eapply gens_kept_trans; [exact Ha|]. eapply IH; eauto.
    + eauto.
Qed.
Lemma gens_step_kept h h' : gens_step h h' -> gens_kept h h'.
Proof.
  intros H. destruct H as [i n vs h' H|i n q vs h' H|d obs vs d' h' H].
  - eapply heap_generate_kept; eauto.
  - unfold random_values in H. destruct q as [qs|]; [|eapply heap_generate_kept; eauto].
    apply bind_ok in H as (ns & _ & H). apply bind_ok in H as ([vs' h1] & H1 & H).
    destruct (existsb _ ns); [discriminate|]. injection H as _ <-. eapply heap_generate_kept; eauto.
  - destruct d; cbn [dgen_generate] in H.
    + injection H as _ _ <-. apply gens_kept_refl.
    + destruct (draws _ _ _). apply bind_ok in H as (ps & _ & H). injection H as _ _ <-. apply gens_kept_refl.
    + apply bind_ok in H as (ns & _ & H). apply bind_ok in H as ([vss h1] & H1 & H). injection H as _ _ <-.
      eapply heap_calls_inv with (I := gens_kept h); [| |exact H1]; [|apply gens_kept_refl].
      cbv beta. intros ha n x hb Ha Hb. eapply gens_kept_trans; [exact Ha|]. eapply heap_generate_kept; eauto.
Qed.

Definition keptg (w w' : world) : Prop := gens_kept (w_gens w) (w_gens w').
Lemma kg_refl w : keptg w w. Proof. apply gens_kept_refl. Qed.
Lemma kg_trans a b c : keptg a b -> keptg b c -> keptg a c. Proof. apply gens_kept_trans. Qed.
Lemma kg_same w w' : w_gens w' = w_gens w -> keptg w w'.
Proof. unfold keptg. intros ->. apply gens_kept_refl. Qed.
Lemma kg_gens w g : gens_step (w_gens w) g -> keptg w (set_gens g w).
Proof. apply gens_step_kept. Qed.
Lemma kg_rel w i r r' : nth_error (w_rels w) i = Some r -> rel_step r r' ->
  keptg w (set_rels (set_nth i r' (w_rels w)) w).
Proof. intros _ _. now apply kg_same. Qed.
Lemma kg_attr w i t t' : nth_error (w_attrs w) i = Some t -> attr_step t t' ->
  keptg w (set_attrs (set_nth i t' (w_attrs w)) w).
Proof. intros _ _. now apply kg_same. Qed.
Lemma kg_pop w i p p' : nth_error (w_pops w) i = Some p -> pop_step p p' ->
  keptg w (set_pops (set_nth i p' (w_pops w)) w).
Proof. intros _ _. now apply kg_same. Qed.

Lemma force_kg a ids : keeps keptg (story_force a ids).
Proof.
  intros w. unfold story_force, bindM, deref. destruct (nth_error (w_stories w) a) as [s|]; [|apply kg_refl].
  destruct (force_act_next s ids) as [r s']. now apply kg_same.
Qed.
Lemma reset_kg a ids : keeps keptg (story_reset a ids).
Proof.
  intros w. unfold story_reset, bindM, deref, lift. destruct (nth_error (w_stories w) a) as [s|]; [|apply kg_refl].
  destruct (nth_error (w_tgens w) (st_tgen s)) as [g|]; [|apply kg_refl].
  destruct (reset_timers s g ids) as [[s' g']|e]; now apply kg_same.
Qed.
Lemma transit_kg a ids st : keeps keptg (story_transit a ids st).
Proof.
  intros w. unfold story_transit, bindM, deref, lift. destruct (nth_error (w_stories w) a) as [s|]; [|apply kg_refl].
  destruct (transit_to_state s ids st) as [s'|e]; now apply kg_same.
Qed.
Lemma tick_kg a ids : keeps keptg (story_tick a ids).
Proof.
  intros w. unfold story_tick, bindM, deref, lift. destruct (nth_error (w_stories w) a) as [s|]; [|apply kg_refl].
  destruct (timer_tick s ids) as [s'|e]; now apply kg_same.
Qed.

Lemma chain_kg ops d : keeps keptg (run_chain ops d).
Proof.
  apply (run_chain_keeps keptg (fun _ => True) (fun _ => True) (fun _ => True)); auto.
  - exact kg_refl.
  - exact kg_trans.
  - intros; now apply kg_same.
  - exact kg_gens.
  - intros; now apply kg_same.
  - exact kg_rel.
  - exact kg_attr.
  - exact kg_pop.
  - intros; apply force_kg.
  - intros; apply reset_kg.
  - intros; apply transit_kg.
Qed.

Ltac kbindg := apply (keeps_bind keptg); [exact kg_trans| |].

Lemma execute_kg a : keeps keptg (execute a).
Proof.
  unfold execute. kbindg; [apply (keeps_deref keptg kg_refl)|]. intros s.
  kbindg; [intros w; now apply kg_same|]. intros _. destruct (active_inactive_ids s) as [act inact].
  kbindg.
  - destruct act; [apply (keeps_ret keptg kg_refl)|]. kbindg; [apply chain_kg|]. intros [d l].
    kbindg; [|intros; apply (keeps_ret keptg kg_refl)].
    destruct (st_auto s); [apply reset_kg|apply tick_kg].
  - intros l. kbindg; [apply tick_kg|intros; apply (keeps_ret keptg kg_refl)].
Qed.

Lemma happen_kg h w : keptg w (snd (happen h w)).
Proof.
  destruct h; cbn [happen].
  - pose proof (execute_kg a w). destruct (execute a w) as [[l|e] w']; exact H.
  - cbn [snd]. unfold increment_clock. destruct (clock_increment _). now apply kg_same.
  - apply force_kg.
  - apply reset_kg.
  - apply transit_kg.
  - apply tick_kg.
Qed.

(** ** Construction *)
Lemma next_seed_kg : keeps keptg next_of_seeder.
Proof.
  intros w. unfold next_of_seeder, bindM, get, modify, ret. destruct (next_seed (w_seeder w)). now apply kg_same.
Qed.
Lemma gen_kg g n : keeps keptg (generate g n).
Proof.
  apply (keeps_generate keptg); [exact kg_refl|exact kg_trans|exact kg_gens].
Qed.

Lemma create_rel_kg p name seed : keeps keptg (create_relationship p name seed).
Proof.
  intros w. destruct (nth_error (w_pops w) p) as [po|] eqn:Hp.
  - destruct (create_rel_world p name seed w po Hp) as (s & sd & ->). now apply kg_same.
  - unfold create_relationship, bindM, deref. rewrite Hp. apply kg_refl.
Qed.
Lemma alloc_kg l n : keeps keptg (alloc_pop l n).
Proof. intros w. unfold alloc_pop. destruct (nodupb l) eqn:E; now apply kg_same. Qed.

Lemma create_pop_kg n g s i : keeps keptg (create_population n g s i).
Proof.
  unfold create_population. kbindg; [apply (keeps_get keptg kg_refl)|]. intros names.
  destruct (dmem n names); [apply (keeps_raise keptg kg_refl)|]. kbindg.
  - unfold new_population. destruct i as [l|].
    + destruct g; [apply (keeps_raise keptg kg_refl)|]. destruct s; [apply (keeps_raise keptg kg_refl)|apply alloc_kg].
    + destruct s as [[|z|z]|]; try apply (keeps_raise keptg kg_refl); [apply alloc_kg| |];
      (destruct g; [kbindg; [apply gen_kg|intros; apply alloc_kg]|apply (keeps_raise keptg kg_refl)]).
  - intros p. kbindg; [apply (keeps_get keptg kg_refl)|]. intros names'.
    kbindg; [intros w; now apply kg_same|intros; apply (keeps_ret keptg kg_refl)].
Qed.

Lemma rel_add_kg r f t : keeps keptg (rel_add r f t).
Proof. apply (keeps_rel_add keptg); [exact kg_refl|exact kg_trans|exact kg_rel]. Qed.
Lemma rel_addg_kg r f t : keeps keptg (rel_add_grouped r f t).
Proof. apply (keeps_rel_add_grouped keptg); [exact kg_refl|exact kg_trans|exact kg_rel]. Qed.
Lemma update_attr_kg a s : keeps keptg (update_attr a s).
Proof. apply (keeps_update_attr keptg); [exact kg_refl|exact kg_trans|exact kg_attr]. Qed.
Lemma pop_update_kg p d : keeps keptg (pop_update p d).
Proof. apply (keeps_pop_update keptg); [exact kg_refl|exact kg_trans|exact kg_attr|exact kg_pop]. Qed.

Lemma stock_kg p n g k : keeps keptg (create_stock_relationship p n g k).
Proof.
  unfold create_stock_relationship. kbindg; [apply create_rel_kg|]. intros r.
  kbindg; [apply (keeps_deref keptg kg_refl)|]. intros po. kbindg; [apply gen_kg|]. intros items.
  kbindg; [apply next_seed_kg|]. intros seed. kbindg; [apply (keeps_get keptg kg_refl)|]. intros pr.
  kbindg; [apply (keeps_lift keptg kg_refl)|]. intros [x y]. apply rel_add_kg.
Qed.
Lemma stockg_kg p n g : keeps keptg (create_stock_relationship_grp p n g).
Proof.
  unfold create_stock_relationship_grp. kbindg; [apply create_rel_kg|]. intros r.
  kbindg; [apply (keeps_deref keptg kg_refl)|]. intros po. kbindg; [apply gen_kg|]. intros items.
  kbindg; [apply (keeps_lift keptg kg_refl)|]. intros x. apply rel_addg_kg.
Qed.

Lemma attr_table_kg p v g r : keeps keptg (attr_table p v g r).
Proof.
  unfold attr_table. kbindg; [apply (keeps_deref keptg kg_refl)|]. intros po.
  destruct (p_size po =? 0)%Z; [apply (keeps_ret keptg kg_refl)|]. destruct r as [n|].
  - kbindg; [unfold get_relationship; kbindg; [apply (keeps_deref keptg kg_refl)|intros; apply (keeps_lift keptg kg_refl)]|].
    intros r. kbindg; [apply (keeps_deref keptg kg_refl)|].
    intros rel. kbindg; [apply (keeps_lift keptg kg_refl)|].
    intros [rows rel']. kbindg; [|intros; apply (keeps_ret keptg kg_refl)].
    intros w. now apply kg_same.
  - destruct v, g; try apply (keeps_raise keptg kg_refl); [apply (keeps_lift keptg kg_refl)|].
    kbindg; [apply gen_kg|intros; apply (keeps_lift keptg kg_refl)].
Qed.
Lemma create_attr_kg p n v g r : keeps keptg (create_attribute p n v g r).
Proof.
  unfold create_attribute. kbindg; [apply attr_table_kg|]. intros t.
  kbindg; [apply (keeps_deref keptg kg_refl)|]. intros po. intros w. now apply kg_same.
Qed.
Lemma select_member_kg p n x : keeps keptg (pop_select_one p n x).
Proof.
  unfold pop_select_one. kbindg; [apply (keeps_deref keptg kg_refl)|]. intros po. kbindg.
  - destruct x; [|apply (keeps_ret keptg kg_refl)]. kbindg.
    + unfold get_attribute_values, get_attribute. kbindg; [kbindg; [apply (keeps_deref keptg kg_refl)|intros; apply (keeps_lift keptg kg_refl)]|].
      intros a. kbindg; [apply (keeps_deref keptg kg_refl)|intros; apply (keeps_lift keptg kg_refl)].
    + intros t. kbindg; [apply (keeps_lift keptg kg_refl)|intros; apply (keeps_ret keptg kg_refl)].
  - intros ws. kbindg; [apply next_seed_kg|]. intros seed. kbindg; [apply (keeps_get keptg kg_refl)|]. intros g.
    intros w. apply gens_kept_app.
Qed.

Lemma all_params_kg ids size states : keeps keptg (all_params ids size states).
Proof.
  induction states as [|[n g] states IH]; cbn [all_params]; [apply (keeps_ret keptg kg_refl)|].
  kbindg.
  - unfold state_params. kbindg; [apply gen_kg|]. intros x. kbindg; [apply gen_kg|]. intros y.
    destruct (negb _ || negb _); [apply (keeps_raise keptg kg_refl)|].
    kbindg; [apply (keeps_lift keptg kg_refl)|]. intros u. kbindg; [apply (keeps_lift keptg kg_refl)|]. intros v.
    apply (keeps_ret keptg kg_refl).
  - intros ps. kbindg; [exact IH|]. intros rest. apply (keeps_ret keptg kg_refl).
Qed.
Lemma create_story_kg o n p f d s t b : keeps keptg (create_story o n p f d s t b).
Proof.
  unfold create_story. kbindg; [apply (keeps_get keptg kg_refl)|]. intros stories.
  destruct (find_story n stories 0); [apply (keeps_raise keptg kg_refl)|]. kbindg.
  - unfold new_story. kbindg; [apply (keeps_deref keptg kg_refl)|]. intros po. kbindg.
    + destruct s; [apply (keeps_lift keptg kg_refl)|apply (keeps_ret keptg kg_refl)].
    + intros m. kbindg; [apply all_params_kg|]. intros cols. cbv zeta. destruct b; [|apply (keeps_ret keptg kg_refl)].
      kbindg; [apply (keeps_deref keptg kg_refl)|]. intros g. kbindg; [apply (keeps_lift keptg kg_refl)|].
      intros [s' g']. kbindg; [intros w1; now apply kg_same|intros; apply (keeps_ret keptg kg_refl)].
  - intros st. kbindg; [apply (keeps_get keptg kg_refl)|]. intros l.
    kbindg; [intros w; now apply kg_same|intros; apply (keeps_ret keptg kg_refl)].
Qed.

Lemma set_ops_kg a ops : keeps keptg (set_operations a ops).
Proof.
  intros w. unfold set_operations, bindM, deref. destruct (nth_error (w_stories w) a) as [s|] eqn:E; [apply gens_kept_app|apply kg_refl].
Qed.
Lemma append_ops_kg a ops : keeps keptg (append_operations a ops).
Proof.
  intros w. unfold append_operations, bindM, deref. destruct (nth_error (w_stories w) a) as [s|] eqn:E; [now apply kg_same|apply kg_refl].
Qed.
Lemma on_rel_kg r f w : keptg w (on_rel r f w).
Proof.
  unfold on_rel. destruct (nth_error (w_rels w) r) as [rel|]; [|apply kg_refl].
  destruct (f rel); [|apply kg_refl]. now apply kg_same.
Qed.
Lemma on_attr_kg a f w : keptg w (on_attr a f w).
Proof.
  unfold on_attr. destruct (nth_error (w_attrs w) a) as [t|]; [|apply kg_refl].
  destruct (f t); [|apply kg_refl]. now apply kg_same.
Qed.

Lemma on_dependent_kg g obs w : keptg w (on_dependent g obs w).
Proof.
  unfold on_dependent. destruct (nth_error (w_dgens w) g) as [d|]; [|apply kg_refl].
  destruct (dgen_generate (w_gens w) d obs) as [[[vs d'] gens]|] eqn:Ed; [|apply kg_refl]. exact (gens_step_kept _ _ (GsDep _ _ _ _ _ _ Ed)).
Qed.
Lemma on_timer_kg t obs w : keptg w (on_timer t obs w).
Proof.
  unfold on_timer. destruct (nth_error (w_tgens w) t) as [y|]; [|apply kg_refl].
  destruct (tgen_generate y obs) as [[ts y']|]; [|apply kg_refl]. now apply kg_same.
Qed.

Lemma call_kg c w : keptg w (after_call c w).
Proof.
  destruct c; cbn [after_call].
  - apply gens_kept_app.
  - now apply kg_same.
  - destruct registered; now apply kg_same.
  - apply create_pop_kg.
  - apply create_rel_kg.
  - apply stock_kg.
  - apply stockg_kg.
  - apply create_attr_kg.
  - apply pop_update_kg.
  - apply select_member_kg.
  - apply update_attr_kg.
  - apply rel_add_kg.
  - apply rel_addg_kg.
  - apply on_rel_kg.
  - apply on_rel_kg.
  - apply on_rel_kg.
  - apply on_rel_kg.
  - apply on_attr_kg.
  - apply on_attr_kg.
  - apply create_story_kg.
  - apply set_ops_kg.
  - apply append_ops_kg.
  - unfold ignore, attach_generator, bindM, get. destruct (dmem id (w_gen_names w)); now apply kg_same.
  - apply gen_kg.
  - apply on_dependent_kg.
  - apply on_timer_kg.
  - apply next_seed_kg.
  - apply happen_kg.
Qed.

Lemma later_gens w w' : later w w' -> gens_kept (w_gens w) (w_gens w').
Proof. induction 1 as [|c w' H IH]; [apply gens_kept_refl|]. eapply gens_kept_trans; [exact IH|apply call_kg]. Qed.
