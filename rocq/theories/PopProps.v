(** Lemmas behind the properties of populations and attributes. *)
From Verif Require Import Base BaseFacts Rng RngFacts Utils UtilsFacts UtilsProps Relationship SpecRelationship RelationshipFacts RelationshipSelect RelationshipProps
  Frame Gens GensProps Clock Attribute SpecAttribute AttributeFacts World Story Ops OpsFacts Fs Circus SpecStory StoryFacts StoryExec
  SpecOps OpsProps OpsColumns StoryStates StoryNew SpecWorld WorldProps SpecPopulation PopFacts StoryWorld2 OpsMore.
From Coq Require Import Permutation.

Lemma set_attrs_only a t' w : only_attribute a w (set_attrs (set_nth a t' (w_attrs w)) w).
Proof.
  split; [split; [reflexivity|apply set_nth_length]|]. intros b N. cbn. rewrite nth_error_set_nth.
  destruct (Nat.eqb_spec a b); [congruence|reflexivity].
Qed.
Lemma In_dget_iff {V} (t : list (val * V)) k v : NoDup (map fst t) -> (In (k, v) t <-> dget k t = Some v).
Proof. intros N. split; [now apply In_dget|apply dget_In]. Qed.

(** ** Attribute.update *)
Lemma update_points a s w : single_valued w a -> NoDup (map fst s) ->
  exists w', update_attr a s w = (Ok tt, w') /\ only_attribute a w w' /\ single_valued w' a /\
    forall k v, holds w' a k v <-> In (k, v) s \/ ~ In k (map fst s) /\ holds w a k v.
Proof.
  intros (t & Ht & Nt) Ns. destruct (attr_update_ok t s Nt Ns) as (t' & E & _ & Nt' & G).
  exists (set_attrs (set_nth a t' (w_attrs w)) w).
  assert (Ha : nth_error (set_nth a t' (w_attrs w)) a = Some t').
  { rewrite nth_error_set_nth, Nat.eqb_refl, Ht. reflexivity. }
  split; [unfold update_attr, bindM, deref; rewrite Ht, E; reflexivity|]. split; [apply set_attrs_only|].
  split; [now exists t'|]. intros k v. transitivity (In (k, v) t').
  - split; [|intros H; now exists t']. intros (t1 & H1 & H). cbn in H1. congruence.
  - rewrite (In_dget_iff _ _ _ Nt'), G. split.
    + destruct (dget k s) as [v'|] eqn:Es.
      * intros [= <-]. left. now apply dget_In.
      * intros H. right. split; [now apply dget_None|]. exists t. split; [exact Ht|now apply dget_In].
    + intros [H|[H (t1 & H1 & H2)]].
      * apply In_dget in H; [|exact Ns]. now rewrite H.
      * apply dget_None in H. rewrite H. assert (t1 = t) by congruence. subst t1. now apply In_dget.
Qed.

Lemma update_repeated a s w : single_valued w a -> ~ NoDup (map fst s) ->
  exists w', update_attr a s w = (Err ValueError, w') /\ only_attribute a w w' /\ ~ single_valued w' a.
Proof.
  intros (t & Ht & Nt) Ns. destruct (attr_update_dup t s Nt Ns) as (t' & E & Nt').
  exists (set_attrs (set_nth a t' (w_attrs w)) w).
  split; [unfold update_attr, bindM, deref; rewrite Ht, E; reflexivity|]. split; [apply set_attrs_only|].
  intros (t1 & H1 & H2). cbn in H1. rewrite nth_error_set_nth, Nat.eqb_refl, Ht in H1. injection H1 as <-. tauto.
Qed.

Lemma values_of_ids p name ids w a : attribute_at w p name a -> single_valued w a ->
  (exists s, get_attribute_values p name (Some ids) w = (Ok s, w) /\ map fst s = ids /\
     forall k v, In (k, v) s -> holds w a k v) \/
  (get_attribute_values p name (Some ids) w = (Err KeyError, w) /\ exists i, In i ids /\ forall v, ~ holds w a i v).
Proof.
  intros (po & Hp & Ha) (t & Ht & Nt).
  assert (E : get_attribute_values p name (Some ids) w = (series_loc t ids, w)).
  { unfold get_attribute_values, get_attribute, bindM, deref, lift. rewrite Hp, Ha, Ht. reflexivity. }
  rewrite E. destruct (existsb (fun i => negb (mem i (dkeys t))) ids) eqn:X.
  - right. apply existsb_exists in X as (i & Hi & X). apply negb_true_iff, mem_not_In in X.
    split; [now rewrite (series_loc_unknown t ids i)|]. exists i. split; [exact Hi|]. intros v (t1 & H1 & H2).
    assert (t1 = t) by congruence. subst t1. apply X. exact (in_map fst _ _ H2).
  - left. destruct (series_loc_ok t ids Nt) as (r & Er & Hk & F).
    { intros i Hi. destruct (mem i (dkeys t)) eqn:M; [now apply mem_In|].
      exfalso. apply (existsb_nth _ _ i) in X as _ || idtac. rewrite <- not_true_iff_false in X. apply X.
      apply existsb_exists. exists i. now rewrite M. }
    exists r. rewrite Er. split; [reflexivity|]. split; [exact Hk|]. intros k v H. rewrite Forall_forall in F.
    apply F in H. exists t. split; [exact Ht|now apply dget_In].
Qed.

(** ** Population.update *)
Lemma keep_last_NoDup {A} (rows : list (val * A)) : NoDup (map fst (keep_last rows)).
Proof.
  induction rows as [|r rows IH]; cbn; [constructor|]. destruct (mem (fst r) (map fst rows)) eqn:E; [exact IH|].
  cbn. constructor; [|exact IH]. apply mem_not_In in E. intros H. apply E. clear -H. induction rows as [|x rows IH]; cbn in *; [exact H|].
  destruct (mem (fst x) (map fst rows)); [auto|]. destruct H; auto.
Qed.
Lemma keep_last_In {A} (rows : list (val * A)) k : In k (map fst (keep_last rows)) <-> In k (map fst rows).
Proof.
  induction rows as [|r rows IH]; cbn; [tauto|]. destruct (mem (fst r) (map fst rows)) eqn:E.
  - apply mem_In in E. rewrite IH. split; [auto|]. intros [<-|H]; auto.
  - cbn. rewrite IH. tauto.
Qed.
Lemma keep_last_value {A B} (f : A -> B) (rows : list (val * A)) k v :
  In (k, v) (map (fun r => (fst r, f (snd r))) (keep_last rows)) <->
  last_value k (map (fun r => (fst r, f (snd r))) rows) = Some v.
Proof.
  induction rows as [|[k0 x] rows IH]; cbn; [split; [tauto|discriminate]|].
  assert (N : last_value k (map (fun r => (fst r, f (snd r))) rows) = None <-> ~ In k (map fst rows)).
  { clear. induction rows as [|[k1 y] rows IH]; cbn; [tauto|]. change (val_eqb k1 k) with (keqb k1 k).
    destruct (last_value k _) eqn:E.
    - split; [discriminate|]. intros H. exfalso. apply H. right. destruct (in_dec key_dec k (map fst rows)) as [I|I]; [exact I|].
      apply IH in I. discriminate.
    - destruct (keqb_spec k1 k) as [->|Hn]; [split; [discriminate|tauto]|]. rewrite <- (proj1 IH eq_refl) || idtac.
      split; [intros _|auto]. intros [H|H]; [congruence|]. now apply IH in H. }
  destruct (mem k0 (map fst rows)) eqn:E.
  - apply mem_In in E. rewrite IH. destruct (last_value k _) eqn:L; [tauto|]. pose proof (proj1 N eq_refl) as L'.
    change (val_eqb k0 k) with (keqb k0 k). destruct (keqb_spec k0 k) as [->|Hn]; [tauto|tauto].
  - apply mem_not_In in E. cbn. rewrite IH. change (val_eqb k0 k) with (keqb k0 k).
    destruct (last_value k _) eqn:L.
    + split; [intros [[= E1 E2]|H]; [subst k0|exact H]|auto]. exfalso. destruct (in_dec key_dec k (map fst rows)) as [I|I]; [tauto|].
      apply N in I. discriminate.
    + destruct (keqb_spec k0 k) as [->|Hn].
      * split; [intros [[= <-]|H]; congruence|intros [= <-]; auto].
      * split; [intros [[= ? ?]|H]; congruence|discriminate].
Qed.


(** One column after the other. *)
Lemma foreach_update p po (d : df) : NoDup (df_index d) ->
  (forall n m a, dget n (p_attrs po) = Some a -> dget m (p_attrs po) = Some a -> n = m) ->
  forall names w, NoDup names -> nth_error (w_pops w) p = Some po ->
  (forall n, In n names -> (exists s, get_col d n = Ok s) /\ exists a, dget n (p_attrs po) = Some a /\ single_valued w a) ->
  exists w', foreach (fun name => let* s := lift (get_col d name) in let* a := get_attribute p name in update_attr a s) names w = (Ok tt, w') /\
    only_attributes w w' /\
    (forall b, (forall n, In n names -> dget n (p_attrs po) <> Some b) -> nth_error (w_attrs w') b = nth_error (w_attrs w) b) /\
    forall n a s, In n names -> dget n (p_attrs po) = Some a -> get_col d n = Ok s -> single_valued w' a /\
      forall k v, holds w' a k v <-> In (k, v) s \/ ~ In k (df_index d) /\ holds w a k v.
Proof.
  intros Nd Inj. induction names as [|n names IH]; intros w Nn Hp Hn; cbn [foreach].
  - exists w. split; [reflexivity|]. split; [split; [now destruct w|reflexivity]|]. split; [auto|]. intros n a s [].
  - inversion Nn as [|? ? Nn1 Nn2]; subst. destruct (Hn n (or_introl eq_refl)) as ((s & Es) & a & Ea & Sa).
    assert (Ks : map fst s = df_index d).
    { apply get_col_cells in Es. subst s. rewrite map_map. reflexivity. }
    destruct (update_points a s w Sa) as (w1 & U & (O1 & O2) & S1 & V1); [now rewrite Ks|].
    destruct (IH w1) as (w' & F & (A1 & A2) & B & C).
    + exact Nn2.
    + rewrite (proj1 O1). exact Hp.
    + intros m Hm. destruct (Hn m (or_intror Hm)) as ((s' & Es') & a' & Ea' & Sa'). split; [now exists s'|].
      exists a'. split; [exact Ea'|]. assert (a' <> a) by (intros ->; apply Nn1; rewrite (Inj _ _ _ Ea Ea'); exact Hm).
      destruct Sa' as (t & Ht & Nt). exists t. rewrite O2 by assumption. auto.
    + exists w'. split.
      * unfold bindM at 1. unfold bindM at 1, lift. rewrite Es. unfold bindM at 1, get_attribute, bindM at 1, deref. rewrite Hp, Ea. cbn [lift].
        rewrite U. exact F.
      * split; [|split].
        -- split; [|destruct O1; congruence]. rewrite A1, (proj1 O1) at 1. reflexivity.
        -- intros b Hb. rewrite B; [apply O2; intros ->; now apply (Hb n); [left|]|]. intros m Hm. apply Hb. now right.
        -- intros m a' s' [<-|Hm] Ea' Es'.
           ++ assert (a' = a) by congruence. assert (s' = s) by congruence. subst a' s'.
              assert (Sm : nth_error (w_attrs w') a = nth_error (w_attrs w1) a).
              { apply B. intros m Hm E. apply Nn1. now rewrite (Inj _ _ _ Ea E). }
              split.
              ** destruct S1 as (t & Ht & Nt). exists t. now rewrite Sm.
              ** intros k v. rewrite <- Ks, <- V1. unfold holds. now rewrite Sm.
           ++ destruct (C m a' s' Hm Ea' Es') as [C1 C2]. split; [exact C1|]. intros k v. rewrite C2.
              assert (a' <> a) by (intros ->; apply Nn1; rewrite (Inj _ _ _ Ea Ea'); exact Hm).
              unfold holds. now rewrite O2.
Qed.

Lemma same_names_iff a b : same_names a b = true <-> (forall x, In x a <-> In x b).
Proof.
  unfold same_names. rewrite andb_true_iff, !forallb_forall. split.
  - intros [H1 H2] x. split; intros H; [apply H1 in H|apply H2 in H]; now apply mem_In.
  - intros H. split; intros x Hx; apply mem_In; now apply H.
Qed.

Lemma population_update g w p po d : built g w -> nth_error (w_pops w) p = Some po ->
  (forall n, In n (df_cols d) <-> In n (dkeys (p_attrs po))) -> NoDup (df_cols d) ->
  (forall n a, attribute_at w p n a -> single_valued w a) ->
  exists w', pop_update p d w = (Ok tt, w') /\
    (forall i, member w' p i <-> member w p i \/ In i (df_index d)) /\
    (forall n a, attribute_at w p n a -> attribute_at w' p n a /\ single_valued w' a /\
       forall k v, holds w' a k v <->
         last_value k (map (fun row => (fst row, cell (df_cols d) (snd row) n)) (df_rows d)) = Some v \/
         ~ In k (df_index d) /\ holds w a k v) /\
    (forall q, q <> p -> nth_error (w_pops w') q = nth_error (w_pops w) q) /\
    (forall q n b, q <> p -> attribute_at w q n b -> nth_error (w_attrs w') b = nth_error (w_attrs w) b).
Proof.
  intros Hb Hp Hc Nc Hs. pose proof (built_own g w Hb) as (O1 & O2 & O3 & O4 & O5).
  set (dd := mkDf (df_cols d) (keep_last (df_rows d))).
  set (po' := mkPop (index_union (p_ids po) (index_difference (df_index dd) (p_ids po))) (p_size po) (p_attrs po) (p_rels po)).
  set (w1 := set_pops (set_nth p po' (w_pops w)) w).
  assert (Hp1 : nth_error (w_pops w1) p = Some po').
  { cbn. rewrite nth_error_set_nth, Nat.eqb_refl, Hp. reflexivity. }
  assert (Col : forall n, In n (df_cols d) -> exists s, get_col dd n = Ok s).
  { intros n Hn. destruct (col_pos_ok n _ Nc Hn) as (i & E). unfold get_col. cbn [df_cols dd]. rewrite E. cbn. eauto. }
  destruct (foreach_update p po' dd (keep_last_NoDup (df_rows d))) with (names := df_cols d) (w := w1) as (w' & F & (A1 & A2) & B & C).
  - intros n m a H1 H2. exact (proj2 (O3 _ _ _ _ _ _ _ Hp Hp H1 H2)).
  - exact Nc.
  - exact Hp1.
  - intros n Hn. split; [now apply Col|]. apply Hc in Hn. destruct (dget n (p_attrs po)) as [a|] eqn:E.
    + exists a. split; [exact E|]. apply (Hs n a). now exists po.
    + apply dget_None in E. contradiction.
  - exists w'. split; [|split; [|split; [|split]]].
    + unfold pop_update, bindM at 1, deref. rewrite Hp.
      rewrite (proj2 (same_names_iff _ _)) by (intros x; symmetry; apply Hc). rewrite (proj2 (nodupb_NoDup _) Nc). exact F.
    + intros i. unfold member. rewrite A1. cbn [w_pops set_attrs]. rewrite Hp1, Hp. split.
      * intros (x & [= <-] & H). cbn [p_ids po'] in H. apply index_union_In in H as [H|H]; [left; now exists po|].
        apply index_difference_In in H as [H _]. right. apply (keep_last_In (df_rows d)) in H. exact H.
      * intros H. exists po'. split; [reflexivity|]. cbn [p_ids po']. apply index_union_In.
        destruct (in_dec key_dec i (p_ids po)) as [I|I]; [now left|]. right. apply index_difference_In. split; [|exact I].
        destruct H as [(x & [= <-] & H)|H]; [contradiction|].
        change (In i (map fst (keep_last (df_rows d)))). apply keep_last_In. exact H.
    + intros n a (po0 & Hp0 & Ha). assert (po0 = po) by congruence. subst po0.
      assert (In n (df_cols d)) as Hn by (apply Hc; eapply dget_Some_key; eauto).
      destruct (Col n Hn) as (s & Es). destruct (C n a s Hn Ha Es) as [C1 C2].
      split; [exists po'; rewrite A1; auto|]. split; [exact C1|]. intros k v. rewrite C2.
      apply get_col_cells in Es. subst s. cbn [df_cols df_rows dd].
      rewrite (keep_last_value (fun cells => cell (df_cols d) cells n)).
      unfold df_index at 1. cbn [df_rows dd]. rewrite keep_last_In. reflexivity.
    + intros q Hq. rewrite A1. cbn. rewrite nth_error_set_nth. destruct (Nat.eqb_spec p q); [congruence|reflexivity].
    + intros q n b Hq (po0 & Hp0 & Ha). rewrite B; [reflexivity|]. intros m _ E.
      destruct (O3 _ _ _ _ _ _ _ Hp Hp0 E Ha). congruence.
Qed.

Lemma population_update_refused w p po d : nth_error (w_pops w) p = Some po ->
  ~ (forall n, In n (df_cols d) <-> In n (dkeys (p_attrs po))) -> pop_update p d w = (Err ValueError, w).
Proof.
  intros Hp H. unfold pop_update, bindM at 1, deref. rewrite Hp.
  destruct (same_names (dkeys (p_attrs po)) (df_cols d)) eqn:E; [|reflexivity]. exfalso. apply H.
  rewrite same_names_iff in E. intros n. symmetry. apply E.
Qed.

(** ** Later states *)
Lemma later_grow w w' : later w w' -> pops_grow w w'.
Proof.
  induction 1 as [|c w' H IH]; [apply grow_refl|]. eapply grow_trans; [exact IH|]. apply call_k2.
Qed.
Lemma members_stay w w' p po : later w w' -> nth_error (w_pops w) p = Some po ->
  exists po', nth_error (w_pops w') p = Some po' /\ p_size po' = p_size po /\ incl (p_ids po) (p_ids po').
Proof. intros L H. exact (later_grow _ _ L _ _ H). Qed.

(** ** Creation of populations *)
Lemma population_ids_refused name ids w : ~ NoDup ids ->
  exists e, create_population name None None (Some ids) w = (Err e, w).
Proof.
  intros H. unfold create_population, bindM at 1, get. destruct (dmem name (w_pop_names w)); [now eexists|].
  unfold bindM at 1. cbn [new_population]. unfold alloc_pop. destruct (nodupb ids) eqn:E; [apply nodupb_NoDup in E; contradiction|].
  now eexists.
Qed.
Lemma population_gen_refused name g n w vs gens : n <> 0%Z -> dmem name (w_pop_names w) = false ->
  gen_generate (w_gens w) g n = Ok (vs, gens) -> ~ NoDup vs ->
  create_population name (Some g) (Some n) None w = (Err ValueError, set_gens gens w).
Proof.
  intros Hn Hd E Nd. unfold create_population, bindM at 1, get. rewrite Hd. unfold bindM at 1.
  assert (X : new_population (Some g) (Some n) None w = (Err ValueError, set_gens gens w)).
  { destruct n; [congruence| |]; cbn [new_population]; unfold bindM, generate, bindM, get, lift; rewrite E;
    unfold modify, ret, alloc_pop; (destruct (nodupb vs) eqn:X; [apply nodupb_NoDup in X; contradiction|reflexivity]). }
  rewrite X. reflexivity.
Qed.

Lemma alloc_pop_ok l n w p w' : alloc_pop l n w = (Ok p, w') -> NoDup l /\ p = length (w_pops w) /\
  w' = set_pops (w_pops w ++ [mkPop l n [] []]) w.
Proof.
  unfold alloc_pop. destruct (nodupb l) eqn:E; [|discriminate]. cbn. intros [= <- <-]. apply nodupb_NoDup in E. auto.
Qed.
Lemma created_size name g s i w p w' : create_population name g s i w = (Ok p, w') -> Forall elementwise (w_gens w) ->
  (forall n, s = Some n -> (0 <= n)%Z) ->
  exists po, nth_error (w_pops w') p = Some po /\ p_size po = Z.of_nat (length (p_ids po)) /\ NoDup (p_ids po) /\
    (forall ids, i = Some ids -> p_ids po = ids) /\ (forall n, s = Some n -> p_size po = n) /\
    p_attrs po = [] /\ p_rels po = [].
Proof.
  intros H F Hs. unfold create_population in H. mstep H. injection E as <- <-.
  destruct (dmem name (w_pop_names w)); [discriminate|]. mstep H. mstep H. injection E0 as <- <-. mstep H. injection E0 as _ <-.
  injection H as <- <-. cbn [w_pops set_pop_names].
  assert (P : exists l n w1, alloc_pop l n w1 = (Ok x, w0) /\ n = Z.of_nat (length l) /\
     (forall ids, i = Some ids -> l = ids) /\ (forall m, s = Some m -> n = m)).
  { unfold new_population in E. destruct i as [l|].
    - destruct g; [discriminate|]. destruct s; [discriminate|]. exists l, (Z.of_nat (length l)), w. split; [exact E|].
      split; [reflexivity|]. split; [congruence|discriminate].
    - destruct s as [[|z|z]|]; [| | |discriminate].
      + exists [], 0%Z, w. split; [exact E|]. split; [reflexivity|]. split; [discriminate|congruence].
      + destruct g as [g|]; [|discriminate]. mstep E. exists x1, (Z.pos z), w1. split; [exact E|].
        split; [|split; [discriminate|congruence]]. unfold generate in E0. mstep E0. injection E1 as <- <-.
        mstep E0. apply lift_ok in E1 as [E1 ->]. destruct x2 as [vs gens]. mstep E0. injection E2 as _ <-. injection E0 as <- <-.
        symmetry. eapply heap_generate_length; [|exact F|exact E1]. lia.
      + specialize (Hs _ eq_refl). lia. }
  destruct P as (l & n & w1 & A & Hn & Hi & Hm). apply alloc_pop_ok in A as (Nd & -> & ->). cbn [w_pops set_pops].
  exists (mkPop l n [] []). rewrite nth_error_app2, Nat.sub_diag by lia. split; [reflexivity|]. cbn [p_ids p_size p_attrs p_rels]. auto 6.
Qed.
