(** Every call of the library keeps the names of a circus: names stay unique, and a name keeps
    denoting the same object. *)
From Verif Require Import Base BaseFacts Rng RngFacts Utils UtilsFacts Relationship SpecRelationship RelationshipFacts Frame Gens GensProps
  Clock SpecClock ClockProps Attribute AttributeFacts World Story Ops OpsFacts Fs Circus SpecStory StoryFacts StoryExec
  StoryProps SpecOps OpsProps OpsColumns StoryMore StoryStates StoryBack StoryDelay StoryNew SpecWorld WorldProps PopFacts SpecPopulation.
From Coq Require Import Permutation.

Definition names_ok (w : world) : Prop :=
  NoDup (map st_name (w_stories w)) /\ NoDup (dkeys (w_pop_names w)) /\ NoDup (dkeys (w_gen_names w)).
Definition keptn (w w' : world) : Prop :=
  (names_ok w -> names_ok w') /\
  (exists l, map st_name (w_stories w') = map st_name (w_stories w) ++ l) /\
  (forall n p, dget n (w_pop_names w) = Some p -> dget n (w_pop_names w') = Some p) /\
  (forall n p, dget n (w_gen_names w) = Some p -> dget n (w_gen_names w') = Some p).
Lemma kn_refl w : keptn w w.
Proof. split; [auto|]. split; [exists []; now rewrite app_nil_r|]. auto. Qed.
Lemma kn_trans a b c : keptn a b -> keptn b c -> keptn a c.
Proof.
  intros (A & [l B] & C & D) (A' & [l' B'] & C' & D'). split; [auto|]. split; [|auto].
  exists (l ++ l'). now rewrite B', B, app_assoc.
Qed.
Lemma kn_names w w' : map st_name (w_stories w') = map st_name (w_stories w) -> w_pop_names w' = w_pop_names w ->
  w_gen_names w' = w_gen_names w -> keptn w w'.
Proof.
  intros E1 E2 E3. unfold keptn, names_ok. rewrite E1, E2, E3. split; [auto|]. split; [exists []; now rewrite app_nil_r|]. auto.
Qed.
Lemma kn_same w w' : w_stories w' = w_stories w -> w_pop_names w' = w_pop_names w ->
  w_gen_names w' = w_gen_names w -> keptn w w'.
Proof. intros E. apply kn_names. now rewrite E. Qed.
Lemma names_put a s s' (l : list story) : nth_error l a = Some s -> st_name s' = st_name s ->
  map st_name (set_nth a s' l) = map st_name l.
Proof.
  revert a; induction l as [|x l IH]; intros [|a] H E; cbn in *; try easy.
  - injection H as ->. now rewrite E.
  - f_equal. now apply IH.
Qed.
Lemma kn_put w w' a s s' : nth_error (w_stories w) a = Some s -> st_name s' = st_name s ->
  w_stories w' = set_nth a s' (w_stories w) -> w_pop_names w' = w_pop_names w ->
  w_gen_names w' = w_gen_names w -> keptn w w'.
Proof. intros H E E1. apply kn_names. rewrite E1. eapply names_put; eauto. Qed.
Lemma kn_gens w g : gens_step (w_gens w) g -> keptn w (set_gens g w).
Proof. intros _. now apply kn_same. Qed.
Lemma kn_rel w i r r' : nth_error (w_rels w) i = Some r -> rel_step r r' ->
  keptn w (set_rels (set_nth i r' (w_rels w)) w).
Proof. intros _ _. now apply kn_same. Qed.
Lemma kn_attr w i t t' : nth_error (w_attrs w) i = Some t -> attr_step t t' ->
  keptn w (set_attrs (set_nth i t' (w_attrs w)) w).
Proof. intros _ _. now apply kn_same. Qed.
Lemma kn_pop w i p p' : nth_error (w_pops w) i = Some p -> pop_step p p' ->
  keptn w (set_pops (set_nth i p' (w_pops w)) w).
Proof. intros _ _. now apply kn_same. Qed.

Lemma force_kn a ids : keeps keptn (story_force a ids).
Proof.
  intros w. unfold story_force, bindM, deref. destruct (nth_error (w_stories w) a) as [s|] eqn:E; [|apply kn_refl].
  destruct (force_act_next s ids) as [r s'] eqn:F. apply force_spec in F. destruct F as [F _].
  apply (kn_put _ _ a s s'); [exact E|apply F|reflexivity|reflexivity|reflexivity].
Qed.
Lemma reset_kn a ids : keeps keptn (story_reset a ids).
Proof.
  intros w. unfold story_reset, bindM, deref, lift. destruct (nth_error (w_stories w) a) as [s|] eqn:E; [|apply kn_refl].
  destruct (nth_error (w_tgens w) (st_tgen s)) as [g|]; [|apply kn_refl].
  destruct (reset_timers s g ids) as [[s' g']|e] eqn:F; [|apply kn_refl]. apply reset_spec in F. destruct F as [F _].
  apply (kn_put _ _ a s s'); [exact E|apply F|reflexivity|reflexivity|reflexivity].
Qed.
Lemma transit_kn a ids st : keeps keptn (story_transit a ids st).
Proof.
  intros w. unfold story_transit, bindM, deref, lift. destruct (nth_error (w_stories w) a) as [s|] eqn:E; [|apply kn_refl].
  destruct (transit_to_state s ids st) as [s'|e] eqn:F; [|apply kn_refl]. apply transit_spec in F. destruct F as (_ & _ & F & _).
  apply (kn_put _ _ a s s'); [exact E|apply F|reflexivity|reflexivity|reflexivity].
Qed.
Lemma tick_kn a ids : keeps keptn (story_tick a ids).
Proof.
  intros w. unfold story_tick, bindM, deref, lift. destruct (nth_error (w_stories w) a) as [s|] eqn:E; [|apply kn_refl].
  destruct (timer_tick s ids) as [s'|e] eqn:F; [|apply kn_refl]. apply tick_spec in F. destruct F as [F _].
  apply (kn_put _ _ a s s'); [exact E|apply F|reflexivity|reflexivity|reflexivity].
Qed.

Lemma chain_kn ops d : keeps keptn (run_chain ops d).
Proof.
  apply (run_chain_keeps keptn (fun _ => True) (fun _ => True) (fun _ => True)); auto.
  - exact kn_refl.
  - exact kn_trans.
  - intros; now apply kn_same.
  - exact kn_gens.
  - intros; now apply kn_same.
  - exact kn_rel.
  - exact kn_attr.
  - exact kn_pop.
  - intros; apply force_kn.
  - intros; apply reset_kn.
  - intros; apply transit_kn.
Qed.

Ltac kbindn := apply (keeps_bind keptn); [exact kn_trans| |].

Lemma execute_kn a : keeps keptn (execute a).
Proof.
  intros w. unfold execute. apply (keeps_bind_dep keptn); [exact kn_trans|apply (keeps_deref keptn kn_refl)|].
  intros s w1 E. apply deref_ok in E. destruct E as [E ->]. revert w E. intros w E.
  apply (keeps_bind_dep keptn); [exact kn_trans|now apply (kn_put _ _ a s (with_forced s []))|]. intros _ w2 _. revert w2.
  destruct (active_inactive_ids s) as [act inact].
  change (keeps keptn (let* all_logs := match act with
    | [] => ret []
    | _ => let* (_, l) := run_chain (st_ops s) (init_story_data (st_field s) act) in
           let* _ := if st_auto s then story_reset a (Some act) else story_tick a act in ret l
    end in let* _ := story_tick a inact in ret all_logs)).
  kbindn.
  - destruct act; [apply (keeps_ret keptn kn_refl)|]. kbindn; [apply chain_kn|]. intros [d l].
    kbindn; [|intros; apply (keeps_ret keptn kn_refl)].
    destruct (st_auto s); [apply reset_kn|apply tick_kn].
  - intros l. kbindn; [apply tick_kn|intros; apply (keeps_ret keptn kn_refl)].
Qed.

Lemma happen_kn h w : keptn w (snd (happen h w)).
Proof.
  destruct h; cbn [happen].
  - pose proof (execute_kn a w). destruct (execute a w) as [[l|e] w']; exact H.
  - cbn [snd]. unfold increment_clock. destruct (clock_increment _). now apply kn_same.
  - apply force_kn.
  - apply reset_kn.
  - apply transit_kn.
  - apply tick_kn.
Qed.

(** ** Construction *)
Lemma next_seed_kn : keeps keptn next_of_seeder.
Proof.
  intros w. unfold next_of_seeder, bindM, get, modify, ret. destruct (next_seed (w_seeder w)). now apply kn_same.
Qed.
Lemma gen_kn g n : keeps keptn (generate g n).
Proof.
  apply (keeps_generate keptn); [exact kn_refl|exact kn_trans|exact kn_gens].
Qed.

Lemma create_rel_kn p name seed : keeps keptn (create_relationship p name seed).
Proof.
  intros w. destruct (nth_error (w_pops w) p) as [po|] eqn:Hp.
  - destruct (create_rel_world p name seed w po Hp) as (s & sd & ->). now apply kn_same.
  - unfold create_relationship, bindM, deref. rewrite Hp. apply kn_refl.
Qed.
Lemma alloc_kn l n : keeps keptn (alloc_pop l n).
Proof. intros w. unfold alloc_pop. destruct (nodupb l) eqn:E; now apply kn_same. Qed.

(** building a population or a story does not touch the names *)
Definition samen (w w' : world) : Prop :=
  w_stories w' = w_stories w /\ w_pop_names w' = w_pop_names w /\ w_gen_names w' = w_gen_names w.
Lemma sn_refl w : samen w w. Proof. now split. Qed.
Lemma sn_trans a b c : samen a b -> samen b c -> samen a c.
Proof. intros (A & B & C) (A' & B' & C'). split; [congruence|]. split; congruence. Qed.
Lemma sn_kn w w' : samen w w' -> keptn w w'.
Proof. intros (A & B & C). now apply kn_same. Qed.
Ltac kbinds := apply (keeps_bind samen); [exact sn_trans| |].
Lemma gen_sn g n : keeps samen (generate g n).
Proof. apply (keeps_generate samen); [exact sn_refl|exact sn_trans|]. intros w h _. now split. Qed.
Lemma alloc_sn l n : keeps samen (alloc_pop l n).
Proof. intros w. unfold alloc_pop. destruct (nodupb l); now split. Qed.
Lemma new_pop_sn g s i : keeps samen (new_population g s i).
Proof.
  unfold new_population. destruct i as [l|].
  - destruct g; [apply (keeps_raise samen sn_refl)|]. destruct s; [apply (keeps_raise samen sn_refl)|apply alloc_sn].
  - destruct s as [[|z|z]|]; try apply (keeps_raise samen sn_refl); [apply alloc_sn| |];
    (destruct g; [kbinds; [apply gen_sn|intros; apply alloc_sn]|apply (keeps_raise samen sn_refl)]).
Qed.

Lemma dget_dmem_new {V} (n m : string) (d : dict string V) p v : dmem n d = false -> dget m d = Some p -> dget m (dset n v d) = Some p.
Proof.
  unfold dmem. intros N H. rewrite dget_dset. destruct (keqb_spec m n) as [->|]; [|exact H]. now rewrite H in N.
Qed.
Lemma create_pop_kn n g s i : keeps keptn (create_population n g s i).
Proof.
  intros w. unfold create_population, bindM at 1, get. destruct (dmem n (w_pop_names w)) eqn:En; [apply kn_refl|].
  unfold bindM at 1. pose proof (new_pop_sn g s i w) as S. destruct (new_population g s i w) as [[p|e] w1]; cbn in S |- *; [|now apply sn_kn].
  destruct S as (A & B & C). split; [|split; [|split]].
  - intros (N1 & N2 & N3). split; [|split]; cbn.
    + now rewrite A.
    + rewrite B. now apply dset_NoDup.
    + now rewrite C.
  - exists []. cbn. now rewrite A, app_nil_r.
  - intros m q Hm. cbn. rewrite B. now apply dget_dmem_new.
  - intros m q Hm. cbn. now rewrite C.
Qed.

Lemma rel_add_kn r f t : keeps keptn (rel_add r f t).
Proof. apply (keeps_rel_add keptn); [exact kn_refl|exact kn_trans|exact kn_rel]. Qed.
Lemma rel_addg_kn r f t : keeps keptn (rel_add_grouped r f t).
Proof. apply (keeps_rel_add_grouped keptn); [exact kn_refl|exact kn_trans|exact kn_rel]. Qed.
Lemma update_attr_kn a s : keeps keptn (update_attr a s).
Proof. apply (keeps_update_attr keptn); [exact kn_refl|exact kn_trans|exact kn_attr]. Qed.
Lemma pop_update_kn p d : keeps keptn (pop_update p d).
Proof. apply (keeps_pop_update keptn); [exact kn_refl|exact kn_trans|exact kn_attr|exact kn_pop]. Qed.

Lemma stock_kn p n g k : keeps keptn (create_stock_relationship p n g k).
Proof.
  unfold create_stock_relationship. kbindn; [apply create_rel_kn|]. intros r.
  kbindn; [apply (keeps_deref keptn kn_refl)|]. intros po. kbindn; [apply gen_kn|]. intros items.
  kbindn; [apply next_seed_kn|]. intros seed. kbindn; [apply (keeps_get keptn kn_refl)|]. intros pr.
  kbindn; [apply (keeps_lift keptn kn_refl)|]. intros [x y]. apply rel_add_kn.
Qed.
Lemma stockn_kn p n g : keeps keptn (create_stock_relationship_grp p n g).
Proof.
  unfold create_stock_relationship_grp. kbindn; [apply create_rel_kn|]. intros r.
  kbindn; [apply (keeps_deref keptn kn_refl)|]. intros po. kbindn; [apply gen_kn|]. intros items.
  kbindn; [apply (keeps_lift keptn kn_refl)|]. intros x. apply rel_addg_kn.
Qed.

Lemma attr_table_kn p v g r : keeps keptn (attr_table p v g r).
Proof.
  unfold attr_table. kbindn; [apply (keeps_deref keptn kn_refl)|]. intros po.
  destruct (p_size po =? 0)%Z; [apply (keeps_ret keptn kn_refl)|]. destruct r as [n|].
  - kbindn; [unfold get_relationship; kbindn; [apply (keeps_deref keptn kn_refl)|intros; apply (keeps_lift keptn kn_refl)]|].
    intros r. kbindn; [apply (keeps_deref keptn kn_refl)|].
    intros rel. kbindn; [apply (keeps_lift keptn kn_refl)|].
    intros [rows rel']. kbindn; [|intros; apply (keeps_ret keptn kn_refl)].
    intros w. now apply kn_same.
  - destruct v, g; try apply (keeps_raise keptn kn_refl); [apply (keeps_lift keptn kn_refl)|].
    kbindn; [apply gen_kn|intros; apply (keeps_lift keptn kn_refl)].
Qed.
Lemma create_attr_kn p n v g r : keeps keptn (create_attribute p n v g r).
Proof.
  unfold create_attribute. kbindn; [apply attr_table_kn|]. intros t.
  kbindn; [apply (keeps_deref keptn kn_refl)|]. intros po. intros w. now apply kn_same.
Qed.
Lemma select_member_kn p n x : keeps keptn (pop_select_one p n x).
Proof.
  unfold pop_select_one. kbindn; [apply (keeps_deref keptn kn_refl)|]. intros po. kbindn.
  - destruct x; [|apply (keeps_ret keptn kn_refl)]. kbindn.
    + unfold get_attribute_values, get_attribute. kbindn; [kbindn; [apply (keeps_deref keptn kn_refl)|intros; apply (keeps_lift keptn kn_refl)]|].
      intros a. kbindn; [apply (keeps_deref keptn kn_refl)|intros; apply (keeps_lift keptn kn_refl)].
    + intros t. kbindn; [apply (keeps_lift keptn kn_refl)|intros; apply (keeps_ret keptn kn_refl)].
  - intros ws. kbindn; [apply next_seed_kn|]. intros seed. kbindn; [apply (keeps_get keptn kn_refl)|]. intros g.
    intros w. now apply kn_same.
Qed.

Lemma new_story_sn o n p f d s t b : keeps samen (new_story o n p f d s t b).
Proof.
  unfold new_story. kbinds; [apply (keeps_deref samen sn_refl)|]. intros po. kbinds.
  - destruct s; [apply (keeps_lift samen sn_refl)|apply (keeps_ret samen sn_refl)].
  - intros m. kbinds; [intros w; destruct (all_params_world (p_ids po) (p_size po) m w) as (g & ->); now split|].
    intros cols. cbv zeta. destruct b; [|apply (keeps_ret samen sn_refl)].
    kbinds; [apply (keeps_deref samen sn_refl)|]. intros g. kbinds; [apply (keeps_lift samen sn_refl)|].
    intros [s' g']. kbinds; [intros w1; now split|intros; apply (keeps_ret samen sn_refl)].
Qed.
Lemma create_story_kn o n p f d s t b : (forall l, Permutation (o l) l) -> keeps keptn (create_story o n p f d s t b).
Proof.
  intros Ho w. destruct (create_story o n p f d s t b w) as [[a|e] w'] eqn:E.
  - destruct (created _ _ _ _ _ _ _ _ _ _ _ E Ho) as (po & sn & Hp & Hs & _ & _ & Hi & Hname & _).
    destruct (create_story_ok _ _ _ _ _ _ _ _ _ _ _ E Ho) as (s' & w1 & Hnew & Hn & Hw1 & -> & _).
    pose proof (new_story_sn o n p f d s t b w) as (A & B & C). rewrite Hn in A, B, C. cbn in A, B, C.
    cbn [snd]. cbn in Hs. apply app_inv_head in Hs. injection Hs as ->. split; [|split; [|split]].
    + intros (N1 & N2 & N3). split; [|split]; cbn.
      * rewrite map_app. cbn. rewrite Hname. apply (Permutation_NoDup (l := n :: map st_name (w_stories w))); [apply Permutation_cons_append|]. now constructor.
      * now rewrite B.
      * now rewrite C.
    + exists [n]. cbn. rewrite map_app. cbn. now rewrite Hname.
    + intros m q Hm. cbn. now rewrite B.
    + intros m q Hm. cbn. now rewrite C.
  - cbn [snd]. unfold create_story, bindM, get in E. destruct (find_story n (w_stories w) 0).
    + injection E as _ <-. apply kn_refl.
    + pose proof (new_story_sn o n p f d s t b w) as K. apply sn_kn in K.
      destruct (new_story o n p f d s t b w) as [[x|e'] w1]; cbn in E, K; [discriminate|]. injection E as _ <-. exact K.
Qed.

Lemma set_ops_kn a ops : keeps keptn (set_operations a ops).
Proof.
  intros w. unfold set_operations, bindM, deref. destruct (nth_error (w_stories w) a) as [s|] eqn:E; [|apply kn_refl].
  eapply (kn_put _ _ a s); [exact E| |reflexivity|reflexivity|reflexivity]. reflexivity.
Qed.
Lemma append_ops_kn a ops : keeps keptn (append_operations a ops).
Proof.
  intros w. unfold append_operations, bindM, deref. destruct (nth_error (w_stories w) a) as [s|] eqn:E; [|apply kn_refl].
  eapply (kn_put _ _ a s); [exact E| |reflexivity|reflexivity|reflexivity]. reflexivity.
Qed.
Lemma attach_kn id g : keeps keptn (attach_generator id g).
Proof.
  intros w. unfold attach_generator, bindM, get. destruct (dmem id (w_gen_names w)) eqn:E; [apply kn_refl|].
  cbn. split; [|split; [|split]].
  - intros (N1 & N2 & N3). split; [|split]; cbn; auto. now apply dset_NoDup.
  - exists []. now rewrite app_nil_r.
  - auto.
  - intros m q Hm. cbn. now apply dget_dmem_new.
Qed.
Lemma on_rel_kn r f w : keptn w (on_rel r f w).
Proof.
  unfold on_rel. destruct (nth_error (w_rels w) r) as [rel|]; [|apply kn_refl].
  destruct (f rel); [|apply kn_refl]. now apply kn_same.
Qed.
Lemma on_attr_kn a f w : keptn w (on_attr a f w).
Proof.
  unfold on_attr. destruct (nth_error (w_attrs w) a) as [t|]; [|apply kn_refl].
  destruct (f t); [|apply kn_refl]. now apply kn_same.
Qed.

Lemma on_dependent_kn g obs w : keptn w (on_dependent g obs w).
Proof.
  unfold on_dependent. destruct (nth_error (w_dgens w) g) as [d|]; [|apply kn_refl].
  destruct (dgen_generate (w_gens w) d obs) as [[[vs d'] gens]|] eqn:Ed; [|apply kn_refl]. now apply kn_same.
Qed.
Lemma on_timer_kn t obs w : keptn w (on_timer t obs w).
Proof.
  unfold on_timer. destruct (nth_error (w_tgens w) t) as [y|]; [|apply kn_refl].
  destruct (tgen_generate y obs) as [[ts y']|]; [|apply kn_refl]. now apply kn_same.
Qed.

Lemma call_kn c w : proper c -> keptn w (after_call c w).
Proof.
  intros Hc.
  destruct c; cbn [after_call].
  - now apply kn_same.
  - now apply kn_same.
  - destruct registered; now apply kn_same.
  - apply create_pop_kn.
  - apply create_rel_kn.
  - apply stock_kn.
  - apply stockn_kn.
  - apply create_attr_kn.
  - apply pop_update_kn.
  - apply select_member_kn.
  - apply update_attr_kn.
  - apply rel_add_kn.
  - apply rel_addg_kn.
  - apply on_rel_kn.
  - apply on_rel_kn.
  - apply on_rel_kn.
  - apply on_rel_kn.
  - apply on_attr_kn.
  - apply on_attr_kn.
  - now apply create_story_kn.
  - apply set_ops_kn.
  - apply append_ops_kn.
  - apply attach_kn.
  - apply gen_kn.
  - apply on_dependent_kn.
  - apply on_timer_kn.
  - apply next_seed_kn.
  - apply happen_kn.
Qed.


Lemma built_names g w : built g w -> names_ok w.
Proof.
  induction 1 as [seed start step|c w Hc H IH].
  - unfold new_circus. destruct (next_seed _). repeat constructor.
  - now apply call_kn.
Qed.
