(** Invariants of every circus a user can build. *)
From Verif Require Import Base BaseFacts Rng RngFacts Utils UtilsFacts Relationship SpecRelationship RelationshipFacts Frame Gens GensProps
  Clock SpecClock ClockProps Attribute AttributeFacts World Story Ops OpsFacts Fs Circus SpecStory StoryFacts StoryExec
  StoryProps SpecOps OpsProps OpsColumns StoryMore StoryStates StoryBack StoryDelay StoryNew SpecWorld.
From Coq Require Import Permutation.

Definition pops_ok (w : world) : Prop := Forall (fun p => NoDup (p_ids p)) (w_pops w).
Definition has_params (s : story) : Prop := forall i st p, In i (st_ids s) -> In st (st_states s) -> exists q, declared s p i st = Some q.
Definition story_sane (s : story) : Prop := NoDup (st_ids s) /\ In "default"%string (st_states s) /\ has_params s.
Definition inv (w : world) : Prop :=
  pops_ok w /\ Forall story_sane (w_stories w) /\ Forall reachable (w_rels w).
Definition inv_kept (w w' : world) : Prop := inv w -> inv w'.

Lemma inv_refl w : inv_kept w w. Proof. intros H; exact H. Qed.
Lemma inv_trans a b c : inv_kept a b -> inv_kept b c -> inv_kept a c. Proof. unfold inv_kept. auto. Qed.
Lemma inv_same w w' : w_pops w' = w_pops w -> w_stories w' = w_stories w ->
  (Forall reachable (w_rels w) -> Forall reachable (w_rels w')) -> inv_kept w w'.
Proof. intros E1 E2 E3 (H1 & H2 & H3). unfold inv, pops_ok. rewrite E1, E2. auto. Qed.

Lemma Forall_nth_error {A} (P : A -> Prop) l i x : Forall P l -> nth_error l i = Some x -> P x.
Proof. intros H E. rewrite Forall_forall in H. apply H. eapply nth_error_In; eauto. Qed.
Lemma Forall_set_nth {A} (P : A -> Prop) i x l : P x -> Forall P l -> Forall P (set_nth i x l).
Proof.
  intros Hx H. revert i. induction H; intros [|i]; cbn; constructor; auto.
Qed.

Lemma rel_step_reachable r r' : reachable r -> rel_step r r' -> reachable r'.
Proof.
  intros H St. destruct St; [eapply reach_select_one|eapply reach_select_many|eapply reach_add|eapply reach_add_grouped]; eauto.
Qed.
Lemma inv_rel w i r r' : nth_error (w_rels w) i = Some r -> rel_step r r' ->
  inv_kept w (set_rels (set_nth i r' (w_rels w)) w).
Proof.
  intros Hr St. apply inv_same; [reflexivity|reflexivity|]. intros H. cbn. apply Forall_set_nth; [|exact H].
  eapply rel_step_reachable; [|exact St]. exact (Forall_nth_error _ _ _ _ H Hr).
Qed.

Lemma inv_put_pop w i p p' : nth_error (w_pops w) i = Some p -> NoDup (p_ids p') ->
  inv_kept w (set_pops (set_nth i p' (w_pops w)) w).
Proof.
  intros Hp Hn (H1 & H2 & H3). split; [|now split]. unfold pops_ok. cbn [w_pops set_pops]. now apply Forall_set_nth.
Qed.
Lemma inv_pop w i p p' : nth_error (w_pops w) i = Some p -> pop_step p p' ->
  inv_kept w (set_pops (set_nth i p' (w_pops w)) w).
Proof.
  intros Hp St H. apply (inv_put_pop w i p p' Hp); [|exact H]. destruct H as [H1 _]. destruct St as [l Nd]. cbn [p_ids].
  eapply Forall_nth_error in H1; [|exact Hp]. apply index_union_NoDup; [exact H1|]. now apply index_difference_NoDup.
Qed.

Lemma static_sane s s' : static s s' -> story_sane s -> story_sane s'.
Proof.
  intros (_ & _ & _ & _ & _ & E1 & E3 & _ & E2) (A & B & C). split; [now rewrite E2|]. split; [now rewrite E1|].
  intros i st p. rewrite E1, E2. unfold declared. rewrite E3. apply C.
Qed.
Lemma table_params ids cols name p f t auto timer : Forall (fun c => length (snd c) = length ids) cols -> dkeys timer = ids ->
  has_params (mkStory name p f t auto [] (map fst cols) (params_table ids cols) timer []).
Proof.
  intros F Et i st q Hi Hst. unfold st_ids in Hi. cbn [st_timer st_states] in Hi, Hst. rewrite Et in Hi. unfold declared. cbn [st_params].
  destruct (dget i (params_table ids cols)) as [states|] eqn:E; [|apply dget_None in E; now rewrite params_table_keys in E].
  apply dget_In in E. apply In_nth_error in E as [k Hk].
  assert (Hik : nth_error ids k = Some i). { rewrite <- (params_table_keys ids cols). unfold dkeys. rewrite nth_error_map, Hk. reflexivity. }
  destruct (params_table_nth ids cols k i Hik F) as (states' & Hk' & Hs). assert (states' = states) by congruence. subst states'.
  apply in_map_iff in Hst as ([st' vals] & E & Hc). cbn in E. subst st'. rewrite Forall_forall in F. pose proof (F _ Hc) as L. cbn in L.
  assert (Lk : k < length ids) by (apply nth_error_Some; congruence).
  destruct (nth_error vals k) as [ab|] eqn:Ev; [|apply nth_error_None in Ev; lia].
  assert (Hin : In (st, ab) states) by (apply Hs; eauto).
  destruct (dget st states) as [x|] eqn:Ex; [cbn; eauto|]. apply dget_None in Ex. exfalso. apply Ex. unfold dkeys. apply in_map_iff. exists (st, ab). auto.
Qed.
Lemma rel_sane w w' : w_pops w' = w_pops w -> w_rels w' = w_rels w ->
  stories_rel (fun _ => static) w w' -> inv_kept w w'.
Proof.
  intros Ep Er R (H1 & H2 & H3). pose proof (proj1 R) as El. split; [unfold pops_ok; now rewrite Ep|].
  split; [|now rewrite Er].
  rewrite Forall_forall in *. intros s' Hs'. apply In_nth_error in Hs' as (n & Hn).
  destruct (nth_error (w_stories w) n) as [s|] eqn:Es.
  - destruct (stories_rel_at _ _ _ _ R _ Es) as (s2 & H2s & St). assert (s2 = s') by congruence. subst s2.
    eapply static_sane; [exact St|]. apply H2. eapply nth_error_In; eauto.
  - apply nth_error_None in Es. assert (n < length (w_stories w')) by (apply nth_error_Some; congruence). lia.
Qed.

Lemma set_nth_length {A} i (x : A) l : length (set_nth i x l) = length l.
Proof. revert i. induction l; intros [|i]; cbn; auto. Qed.

Lemma happen_force_inv a ids : keeps inv_kept (story_force a ids).
Proof.
  intros w. apply rel_sane; [| |apply (happen_static (HForce a ids) w)];
  (unfold story_force, bindM, deref; destruct (nth_error (w_stories w) a) as [s|]; [|reflexivity];
  destruct (force_act_next s ids) as [r s']; reflexivity).
Qed.
Lemma happen_reset_inv a ids : keeps inv_kept (story_reset a ids).
Proof.
  intros w. apply rel_sane; [| |apply (happen_static (HReset a ids) w)];
  (unfold story_reset, bindM, deref, lift; destruct (nth_error (w_stories w) a) as [s|]; [|reflexivity];
  destruct (nth_error (w_tgens w) (st_tgen s)) as [g|]; [|reflexivity];
  destruct (reset_timers s g ids) as [[s' g']|e]; reflexivity).
Qed.
Lemma happen_transit_inv a ids st : keeps inv_kept (story_transit a ids st).
Proof.
  intros w. apply rel_sane; [| |apply (happen_static (HTransit a ids st) w)];
  (unfold story_transit, bindM, deref, lift; destruct (nth_error (w_stories w) a) as [s|]; [|reflexivity];
  destruct (transit_to_state s ids st) as [s'|e]; reflexivity).
Qed.
Lemma happen_tick_inv a ids : keeps inv_kept (story_tick a ids).
Proof.
  intros w. apply rel_sane; [| |apply (happen_static (HTick a ids) w)];
  (unfold story_tick, bindM, deref, lift; destruct (nth_error (w_stories w) a) as [s|]; [|reflexivity];
  destruct (timer_tick s ids) as [s'|e]; reflexivity).
Qed.

Lemma chain_inv ops d : keeps inv_kept (run_chain ops d).
Proof.
  apply (run_chain_keeps inv_kept (fun _ => True) (fun _ => True) (fun _ => True)); auto.
  - exact inv_refl.
  - exact inv_trans.
  - intros; now apply inv_same.
  - intros; now apply inv_same.
  - intros; now apply inv_same.
  - exact inv_rel.
  - intros; now apply inv_same.
  - exact inv_pop.
  - intros; apply happen_force_inv.
  - intros; apply happen_reset_inv.
  - intros; apply happen_transit_inv.
Qed.

Ltac kbind := apply (keeps_bind inv_kept); [exact inv_trans| |].

Lemma execute_inv a : keeps inv_kept (execute a).
Proof.
  intros w. unfold execute. apply (keeps_bind_dep inv_kept); [exact inv_trans|apply (keeps_deref inv_kept inv_refl)|].
  intros s w1 E. apply deref_ok in E as [Hs ->].
  apply (keeps_bind_dep inv_kept); [exact inv_trans| |].
  - apply rel_sane; [reflexivity|reflexivity|]. split; [apply set_nth_length|]. cbn. intros b sb Hb.
    rewrite nth_error_set_nth. destruct (Nat.eqb_spec a b) as [->|N].
    + rewrite Hs in *. exists (with_forced s []). injection Hb as <-.
      assert (b < length (w_stories w)) by (apply nth_error_Some; congruence).
      destruct (Nat.ltb_spec b (length (w_stories w))); [|lia]. split; [reflexivity|].
      unfold static, with_forced, st_ids. cbn. tauto.
    + exists sb. split; [exact Hb|apply static_refl].
  - intros _ w1 _. destruct (active_inactive_ids s) as [act inact]. revert w1.
    change (keeps inv_kept (let* all_logs := match act with [] => ret [] | _ :: _ =>
       let* (_, l) := run_chain (st_ops s) (init_story_data (st_field s) act) in
       let* _ := (if st_auto s then story_reset a (Some act) else story_tick a act) in ret l end in
       let* _ := story_tick a inact in ret all_logs)).
    kbind.
    + destruct act; [apply (keeps_ret inv_kept inv_refl)|]. kbind; [apply chain_inv|]. intros [d l].
      kbind; [|intros; apply (keeps_ret inv_kept inv_refl)].
      destruct (st_auto s); [apply happen_reset_inv|apply happen_tick_inv].
    + intros l. kbind; [apply happen_tick_inv|intros; apply (keeps_ret inv_kept inv_refl)].
Qed.

Lemma happen_inv h w : inv_kept w (snd (happen h w)).
Proof.
  destruct h; cbn [happen].
  - pose proof (execute_inv a w). destruct (execute a w) as [[l|e] w']; exact H.
  - cbn [snd]. unfold increment_clock. destruct (clock_increment _). now apply inv_same.
  - apply happen_force_inv.
  - apply happen_reset_inv.
  - apply happen_transit_inv.
  - apply happen_tick_inv.
Qed.

(** ** Construction *)
Lemma keeps_next_seed : keeps inv_kept next_of_seeder.
Proof.
  intros w. unfold next_of_seeder, bindM, get, modify, ret. destruct (next_seed (w_seeder w)). now apply inv_same.
Qed.
Lemma keeps_gen g n : keeps inv_kept (generate g n).
Proof.
  intros w. destruct (generate g n w) as [r w'] eqn:E. apply generate_gens in E as (gens & ->). now apply inv_same.
Qed.

Lemma create_rel_inv p name seed : keeps inv_kept (create_relationship p name seed).
Proof.
  intros w. unfold create_relationship. apply (keeps_bind_dep inv_kept); [exact inv_trans|apply (keeps_deref inv_kept inv_refl)|].
  intros po w1 E. apply deref_ok in E as [Hp ->].
  assert (K : exists r w2, (match seed with Some (Npos q) => ret (Npos q) | _ => next_of_seeder end) w = (Ok r, w2) /\
                 w_pops w2 = w_pops w /\ w_stories w2 = w_stories w /\ w_rels w2 = w_rels w).
  { destruct seed as [[|q]|]; [| eexists _, _; split; [reflexivity|auto] |];
    unfold next_of_seeder, bindM, get, modify, ret; destruct (next_seed (w_seeder w)); eexists _, _; (split; [reflexivity|auto]). }
  destruct K as (r & w2 & E & Ep & Es & Er). unfold bindM at 1. rewrite E. intros H.
  apply (inv_put_pop (set_rels (w_rels w2 ++ [new_relationship (w_prng w2) r]) w2) p po); [cbn; rewrite Ep; exact Hp| |].
  - destruct H as [H _]. cbn. exact (Forall_nth_error _ _ _ _ H Hp).
  - revert H. apply inv_same; auto. cbn. rewrite Er. intros H. apply Forall_app. split; [exact H|].
    constructor; [apply reach_new|constructor].
Qed.

Lemma alloc_inv l n : keeps inv_kept (alloc_pop l n).
Proof.
  intros w. unfold alloc_pop. destruct (nodupb l) eqn:E; cbn; [|apply inv_refl]. intros (H1 & H2 & H3).
  split; [|now split]. unfold pops_ok. cbn. apply Forall_app. split; [exact H1|]. constructor; [|constructor].
  cbn. now apply nodupb_NoDup.
Qed.

Lemma create_pop_inv n g s i : keeps inv_kept (create_population n g s i).
Proof.
  unfold create_population. kbind; [apply (keeps_get inv_kept inv_refl)|]. intros names.
  destruct (dmem n names); [apply (keeps_raise inv_kept inv_refl)|]. kbind.
  - unfold new_population. destruct i as [l|].
    + destruct g; [apply (keeps_raise inv_kept inv_refl)|]. destruct s; [apply (keeps_raise inv_kept inv_refl)|apply alloc_inv].
    + destruct s as [[|z|z]|]; try apply (keeps_raise inv_kept inv_refl); [apply alloc_inv| |];
      (destruct g; [kbind; [apply keeps_gen|intros; apply alloc_inv]|apply (keeps_raise inv_kept inv_refl)]).
  - intros p. kbind; [apply (keeps_get inv_kept inv_refl)|]. intros names'.
    kbind; [intros w; now apply inv_same|intros; apply (keeps_ret inv_kept inv_refl)].
Qed.

Lemma rel_add_inv r f t : keeps inv_kept (rel_add r f t).
Proof. apply (keeps_rel_add inv_kept); [exact inv_refl|exact inv_trans|exact inv_rel]. Qed.
Lemma rel_addg_inv r f t : keeps inv_kept (rel_add_grouped r f t).
Proof. apply (keeps_rel_add_grouped inv_kept); [exact inv_refl|exact inv_trans|exact inv_rel]. Qed.
Lemma update_attr_inv a s : keeps inv_kept (update_attr a s).
Proof. apply (keeps_update_attr inv_kept); [exact inv_refl|exact inv_trans|]. intros; now apply inv_same. Qed.
Lemma pop_update_inv p d : keeps inv_kept (pop_update p d).
Proof. apply (keeps_pop_update inv_kept); [exact inv_refl|exact inv_trans| |exact inv_pop]. intros; now apply inv_same. Qed.

Lemma stock_inv p n g k : keeps inv_kept (create_stock_relationship p n g k).
Proof.
  unfold create_stock_relationship. kbind; [apply create_rel_inv|]. intros r.
  kbind; [apply (keeps_deref inv_kept inv_refl)|]. intros po. kbind; [apply keeps_gen|]. intros items.
  kbind; [apply keeps_next_seed|]. intros seed. kbind; [apply (keeps_get inv_kept inv_refl)|]. intros pr.
  kbind; [apply (keeps_lift inv_kept inv_refl)|]. intros [x y]. apply rel_add_inv.
Qed.
Lemma stockg_inv p n g : keeps inv_kept (create_stock_relationship_grp p n g).
Proof.
  unfold create_stock_relationship_grp. kbind; [apply create_rel_inv|]. intros r.
  kbind; [apply (keeps_deref inv_kept inv_refl)|]. intros po. kbind; [apply keeps_gen|]. intros items.
  kbind; [apply (keeps_lift inv_kept inv_refl)|]. intros x. apply rel_addg_inv.
Qed.

Lemma attr_table_inv p v g r : keeps inv_kept (attr_table p v g r).
Proof.
  unfold attr_table. kbind; [apply (keeps_deref inv_kept inv_refl)|]. intros po.
  destruct (p_size po =? 0)%Z; [apply (keeps_ret inv_kept inv_refl)|]. destruct r as [n|].
  - kbind; [unfold get_relationship; kbind; [apply (keeps_deref inv_kept inv_refl)|intros; apply (keeps_lift inv_kept inv_refl)]|].
    intros r. intros w. apply (keeps_bind_dep inv_kept); [exact inv_trans|apply (keeps_deref inv_kept inv_refl)|].
    intros rel w1 E. apply deref_ok in E as [Hr ->].
    apply (keeps_bind_dep inv_kept); [exact inv_trans|apply (keeps_lift inv_kept inv_refl)|].
    intros [rows rel'] w1 E. apply lift_ok in E as [E ->].
    apply (keeps_bind_dep inv_kept); [exact inv_trans| |intros; apply (keeps_ret inv_kept inv_refl)].
    cbn. apply (inv_rel w r rel); [exact Hr|]. eapply RsSelectOne; eauto.
  - destruct v, g; try apply (keeps_raise inv_kept inv_refl); [apply (keeps_lift inv_kept inv_refl)|].
    kbind; [apply keeps_gen|intros; apply (keeps_lift inv_kept inv_refl)].
Qed.
Lemma create_attr_inv p n v g r : keeps inv_kept (create_attribute p n v g r).
Proof.
  unfold create_attribute. kbind; [apply attr_table_inv|]. intros t. intros w.
  apply (keeps_bind_dep inv_kept); [exact inv_trans|apply (keeps_deref inv_kept inv_refl)|].
  intros po w1 E. apply deref_ok in E as [Hp ->]. intros H.
  apply (inv_put_pop (set_attrs (w_attrs w ++ [t]) w) p po); [exact Hp| |].
  - destruct H as [H _]. cbn. exact (Forall_nth_error _ _ _ _ H Hp).
  - revert H. apply inv_same; auto.
Qed.
Lemma select_member_inv p n x : keeps inv_kept (pop_select_one p n x).
Proof.
  unfold pop_select_one. kbind; [apply (keeps_deref inv_kept inv_refl)|]. intros po. kbind.
  - destruct x; [|apply (keeps_ret inv_kept inv_refl)]. kbind.
    + unfold get_attribute_values, get_attribute. kbind; [kbind; [apply (keeps_deref inv_kept inv_refl)|intros; apply (keeps_lift inv_kept inv_refl)]|].
      intros a. kbind; [apply (keeps_deref inv_kept inv_refl)|intros; apply (keeps_lift inv_kept inv_refl)].
    + intros t. kbind; [apply (keeps_lift inv_kept inv_refl)|intros; apply (keeps_ret inv_kept inv_refl)].
  - intros ws. kbind; [apply keeps_next_seed|]. intros seed. kbind; [apply (keeps_get inv_kept inv_refl)|]. intros g.
    kbind; [apply (keeps_get inv_kept inv_refl)|]. intros gens.
    kbind; [intros w; now apply inv_same|intros; apply (keeps_ret inv_kept inv_refl)].
Qed.

Lemma state_params_world ids size g w : exists gens, snd (state_params ids size g w) = set_gens gens w.
Proof.
  unfold state_params, bindM. destruct (generate (fst g) size w) as [r w1] eqn:E1.
  destruct (generate_gens _ _ _ _ _ E1) as (g1 & ->). destruct r as [x|e]; [|now exists g1].
  destruct (generate (snd g) size (set_gens g1 w)) as [r w2] eqn:E2.
  destruct (generate_gens _ _ _ _ _ E2) as (g2 & ->). destruct r as [y|e]; [|now exists g2].
  exists g2. destruct (negb _ || negb _); [reflexivity|]. unfold lift. destruct (mapr as_Q x); [|reflexivity].
  destruct (mapr as_Q y); reflexivity.
Qed.
Lemma all_params_world ids size states : forall w, exists gens, snd (all_params ids size states w) = set_gens gens w.
Proof.
  induction states as [|[n g] states IH]; intros w; cbn [all_params].
  - exists (w_gens w). now rewrite set_gens_same.
  - unfold bindM at 1. destruct (state_params_world ids size g w) as (g1 & E1).
    destruct (state_params ids size g w) as [[x|e] w1]; cbn in E1; subst w1; [|now exists g1].
    unfold bindM. destruct (IH (set_gens g1 w)) as (g2 & E2).
    destruct (all_params ids size states (set_gens g1 w)) as [[y|e] w2]; cbn in E2; subst w2; now exists g2.
Qed.
Lemma all_params_inv ids size states : keeps inv_kept (all_params ids size states).
Proof. intros w. destruct (all_params_world ids size states w) as (g & ->). now apply inv_same. Qed.

Lemma create_story_inv o n p f d s t b : (forall l, Permutation (o l) l) -> keeps inv_kept (create_story o n p f d s t b).
Proof.
  intros Ho w. destruct (create_story o n p f d s t b w) as [[a|e] w'] eqn:E.
  - destruct (created _ _ _ _ _ _ _ _ _ _ _ E Ho) as (po & sn & Hp & Hs & _ & _ & Hi & _ & _ & _ & _ & _ & _ & _ & Hd & _).
    destruct (create_story_ok _ _ _ _ _ _ _ _ _ _ _ E Ho) as (s' & w1 & _ & Hn & Hw1 & -> & _).
    destruct (new_story_ok _ _ _ _ _ _ _ _ _ _ _ Hn Ho) as (po' & gens & cols & g' & sb & _ & -> & St & _ & _ & Esb & Fc & _).
    assert (Esn : s' = sn) by (cbn [w_stories set_stories] in Hs; now apply app_inj_tail in Hs as [_ ->]). subst s'.
    cbn [snd]. intros (H1 & H2 & H3). split; [exact H1|]. split; [|exact H3]. rewrite Hs. apply Forall_app. split; [exact H2|].
    constructor; [|constructor]. split; [|split].
    + rewrite Hi. eapply Forall_nth_error in H1; [|exact Hp]. exact H1.
    + apply Hd. now left.
    + assert (Hb : has_params sb).
      { rewrite Esb. apply table_params; [exact Fc|]. unfold dkeys, fresh_timer. rewrite map_map. apply map_id. }
      destruct St as (_ & _ & _ & _ & _ & E1 & E3 & _ & E2). intros i st q. rewrite E1, E2. unfold declared. rewrite E3. apply Hb.
  - cbn [snd]. unfold create_story, bindM, get in E. destruct (find_story n (w_stories w) 0).
    + injection E as _ <-. apply inv_refl.
    + assert (K : inv_kept w (snd (new_story o n p f d s t b w))).
      { revert w E. change (keeps inv_kept (new_story o n p f d s t b)) || idtac. intros w _.
        assert (KK : keeps inv_kept (new_story o n p f d s t b)).
        { unfold new_story. kbind; [apply (keeps_deref inv_kept inv_refl)|]. intros po. kbind.
          - destruct s; [apply (keeps_lift inv_kept inv_refl)|apply (keeps_ret inv_kept inv_refl)].
          - intros m. kbind; [apply all_params_inv|]. intros cols. cbv zeta. destruct b; [|apply (keeps_ret inv_kept inv_refl)].
            kbind; [apply (keeps_deref inv_kept inv_refl)|]. intros g. kbind; [apply (keeps_lift inv_kept inv_refl)|].
            intros [s' g']. kbind; [intros w1; now apply inv_same|intros; apply (keeps_ret inv_kept inv_refl)]. }
        apply KK. }
      destruct (new_story o n p f d s t b w) as [[x|e'] w1]; cbn in E, K; [discriminate|]. injection E as _ <-. exact K.
Qed.

Lemma with_ops_static_ids s ops : story_sane s -> story_sane (with_ops s ops).
Proof. intros H; exact H. Qed.
Lemma set_ops_inv a ops : keeps inv_kept (set_operations a ops).
Proof.
  intros w. unfold set_operations, bindM, deref. destruct (nth_error (w_stories w) a) as [s|] eqn:E; [|apply inv_refl].
  cbn. intros (H1 & H2 & H3). split; [exact H1|]. split; [|exact H3]. cbn. apply Forall_set_nth; [|exact H2].
  eapply Forall_nth_error in H2; [|exact E]. exact H2.
Qed.
Lemma append_ops_inv a ops : keeps inv_kept (append_operations a ops).
Proof.
  intros w. unfold append_operations, bindM, deref. destruct (nth_error (w_stories w) a) as [s|] eqn:E; [|apply inv_refl].
  cbn. intros (H1 & H2 & H3). split; [exact H1|]. split; [|exact H3]. cbn. apply Forall_set_nth; [|exact H2].
  eapply Forall_nth_error in H2; [|exact E]. exact H2.
Qed.

Lemma on_rel_inv r f w : (forall rel rel', reachable rel -> f rel = Ok rel' -> reachable rel') -> inv_kept w (on_rel r f w).
Proof.
  intros Hf. unfold on_rel. destruct (nth_error (w_rels w) r) as [rel|] eqn:E; [|apply inv_refl].
  destruct (f rel) as [rel'|] eqn:Ef; [|apply inv_refl]. apply inv_same; [reflexivity|reflexivity|].
  intros H. cbn. apply Forall_set_nth; [|exact H]. eapply Hf; [|exact Ef]. exact (Forall_nth_error _ _ _ _ H E).
Qed.
Lemma on_attr_inv a f w : inv_kept w (on_attr a f w).
Proof.
  unfold on_attr. destruct (nth_error (w_attrs w) a) as [t|]; [|apply inv_refl].
  destruct (f t); [now apply inv_same|apply inv_refl].
Qed.

Lemma on_dependent_inv g obs w : inv_kept w (on_dependent g obs w).
Proof.
  unfold on_dependent. destruct (nth_error (w_dgens w) g) as [d|]; [|apply inv_refl].
  destruct (dgen_generate (w_gens w) d obs) as [[[vs d'] gens]|] eqn:Ed; [|apply inv_refl]. now apply inv_same.
Qed.
Lemma on_timer_inv t obs w : inv_kept w (on_timer t obs w).
Proof.
  unfold on_timer. destruct (nth_error (w_tgens w) t) as [y|]; [|apply inv_refl].
  destruct (tgen_generate y obs) as [[ts y']|]; [|apply inv_refl]. now apply inv_same.
Qed.

Lemma call_inv c w : proper c -> inv w -> inv (after_call c w).
Proof.
  intros Hc. destruct c; cbn [after_call].
  - now apply inv_same.
  - now apply inv_same.
  - destruct registered; now apply inv_same.
  - apply create_pop_inv.
  - apply create_rel_inv.
  - apply stock_inv.
  - apply stockg_inv.
  - apply create_attr_inv.
  - apply pop_update_inv.
  - apply select_member_inv.
  - apply update_attr_inv.
  - apply rel_add_inv.
  - apply rel_addg_inv.
  - apply on_rel_inv. intros; eapply reach_add; eauto.
  - apply on_rel_inv. intros; eapply reach_remove; eauto.
  - apply on_rel_inv. intros r0 r' H E. destruct (select_one r0 froms pop discard one_to_one weights) as [[x y]|] eqn:E1;
    [|discriminate]. injection E as <-. eapply reach_select_one; eauto.
  - apply on_rel_inv. intros r0 r' H E. destruct (select_many r0 reqs pop discard) as [[x y]|] eqn:E1;
    [|discriminate]. injection E as <-. eapply reach_select_many; eauto.
  - apply on_attr_inv.
  - apply on_attr_inv.
  - now apply create_story_inv.
  - apply set_ops_inv.
  - apply append_ops_inv.
  - unfold ignore, attach_generator, bindM, get. destruct (dmem id (w_gen_names w)); now apply inv_same.
  - apply keeps_gen.
  - apply on_dependent_inv.
  - apply on_timer_inv.
  - apply keeps_next_seed.
  - apply happen_inv.
Qed.

Lemma built_inv g w : built g w -> inv w.
Proof.
  induction 1 as [seed start step|c w Hc _ IH].
  - unfold new_circus. destruct (next_seed _). repeat split; constructor.
  - now apply call_inv.
Qed.

Lemma built_distinct g w : built g w -> distinct_members w.
Proof.
  intros H. apply built_inv in H as (_ & H & _). intros a s Hs. eapply Forall_nth_error in H; [|exact Hs]. apply H.
Qed.
Lemma built_default g w a s : built g w -> nth_error (w_stories w) a = Some s -> In "default"%string (st_states s).
Proof. intros H Hs. apply built_inv in H as (_ & H & _). eapply Forall_nth_error in H; [|exact Hs]. apply H. Qed.
Lemma built_params g w a s i st p : built g w -> nth_error (w_stories w) a = Some s -> In i (st_ids s) -> In st (st_states s) ->
  exists q, declared s p i st = Some q.
Proof. intros H Hs. apply built_inv in H as (_ & H & _). eapply Forall_nth_error in H; [|exact Hs]. apply H. Qed.
Lemma built_ids g w p po : built g w -> nth_error (w_pops w) p = Some po -> NoDup (p_ids po).
Proof. intros H Hs. apply built_inv in H as (H & _). eapply Forall_nth_error in H; [|exact Hs]. exact H. Qed.
Lemma built_reachable g w r rel : built g w -> nth_error (w_rels w) r = Some rel -> reachable rel.
Proof. intros H Hs. apply built_inv in H as (_ & _ & H). eapply Forall_nth_error in H; [|exact Hs]. exact H. Qed.
