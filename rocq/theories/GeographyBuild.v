(** The world after the construction of the geography. *)
From Verif Require Import Base BaseFacts Rng RngFacts Utils UtilsFacts Relationship RelationshipFacts SpecRelationship RelationshipProps
  Frame Gens GensProps Clock SpecClock ClockProps Attribute AttributeFacts World Story Ops OpsFacts Fs Circus SpecStory StoryFacts StoryExec
  StoryProps SpecOps OpsProps OpsColumns OpsMore StoryMore StoryStates StoryBack StoryDelay StoryNew PopMore Geography SpecGeography GeographyRun.
From Coq Require Import Permutation Lqa Qround.
Local Open Scope nat_scope.

Lemma deref_eq {A} (f : world -> list A) i w x : nth_error (f w) i = Some x -> deref f i w = (Ok x, w).
Proof. intros H. unfold deref. now rewrite H. Qed.

Local Opaque n_cells n_names.
Lemma build_does src w : does (build_uganda_populations src) w (dmem "cells"%string (w_pop_names w) = false /\ dmem "cities"%string (w_pop_names w) = false)
  (fun r w' => exists healths sizes assigned rel s sd gens,
     r = (length (w_pops w), S (length (w_pops w)), uganda_profile) /\
     length healths = length cell_ids /\ Forall (fun v => exists x, v = VNum (beta_1_999 src x)) healths /\
     length sizes = length (city_ids src) /\ Forall (fun v => exists x, v = VNum ((lomax_1_4 src x + 1) * Q2Qc 10000)%Qc) sizes /\
     map fst assigned = cell_ids /\ Forall (fun p => In (snd p) (city_ids src)) assigned /\
     add_relations (new_relationship (w_prng w) s) (map snd assigned) (map fst assigned) (WScalar 1) = Ok rel /\
     w' = mkWorld (w_prng w) sd (w_clock w)
       (w_attrs w ++ [combine cell_ids (map (latitudes src) (seq 0 (length cell_ids))); combine cell_ids (map (longitudes src) (seq 0 (length cell_ids)));
                      combine cell_ids healths; combine (city_ids src) sizes])
       (w_rels w ++ [rel]) (w_gens w ++ gens) (w_dgens w) (w_tgens w)
       (w_pops w ++ [mkPop cell_ids n_cells [("latitude"%string, length (w_attrs w)); ("longitude"%string, 1 + length (w_attrs w));
                                              ("HEALTH"%string, 2 + length (w_attrs w))] [];
                     mkPop (city_ids src) (Z.of_nat (length (city_ids src))) [("population"%string, 3 + length (w_attrs w))]
                       [("CELLS"%string, length (w_rels w))]])
       (w_stories w) (dset "cities"%string (S (length (w_pops w))) (dset "cells"%string (length (w_pops w)) (w_pop_names w))) (w_gen_names w)).
Proof.
  destruct w as [pg sd ck attrs rels gens dgens tgens pops stories names gnames]. worlds.
  match goal with |- does _ _ _ ?X => set (Q := X) end.
  pose proof n_cells_pos as Hn. pose proof n_names_pos as Hn'.
  unfold build_uganda_populations. eapply does_step; [reflexivity|]. worlds.
  eapply does_step; [apply alloc_gen_eq|]. worlds.
  eapply does_bind.
  { apply (population_gen_does "cells" gens (GSeq 0 "CELL_" 10) n_cells cell_ids (GSeq (0 + n_cells) "CELL_" 10)); [reflexivity|reflexivity|lia|apply cell_ids_NoDup]. }
  intros cells w1 Hc (-> & ->). worlds. cbn [app] in *.
  assert (L : forall (f : nat -> val), length (map f (seq 0 (Z.to_nat n_cells))) = length cell_ids).
  { intros f. rewrite map_length, seq_length. symmetry. apply cell_ids_length. }
  (* the latitude *)
  destruct (next_seed (random_state pg 12345)) as [s1 sd1]. eapply does_step; [apply alloc_gen_eq|]. worlds.
  eapply does_step.
  { eapply (attribute_eq "latitude" (gens ++ [GSeq n_cells "CELL_" 10]) (GOracle (latitudes src) 0) _ _ pops _ []);
      [reflexivity|reflexivity|apply oracle_step|cbn [p_size]; lia|apply L]. }
  worlds. cbn [p_ids p_size p_attrs p_rels].
  (* the longitude *)
  destruct (next_seed sd1) as [s2 sd2]. eapply does_step; [apply alloc_gen_eq|]. worlds.
  eapply does_step.
  { eapply (attribute_eq "longitude" ((gens ++ [GSeq n_cells "CELL_" 10]) ++ [_]) (GOracle (longitudes src) 0) _ _ pops _ []);
      [reflexivity|reflexivity|apply oracle_step|cbn [p_size]; lia|apply L]. }
  worlds. cbn [p_ids p_size p_attrs p_rels].
  (* the health *)
  destruct (next_seed sd2) as [s3 sd3]. eapply does_step; [apply alloc_gen_eq|]. worlds.
  destruct (other_step (beta_1_999 src) (random_state pg s3) n_cells) as (healths & hst & Hh1 & Hh2 & Hh3); [lia|].
  eapply does_step.
  { eapply (attribute_eq "HEALTH" (((gens ++ [GSeq n_cells "CELL_" 10]) ++ [_]) ++ [_]) (healthy_level_gen src pg s3) _ _ pops _ []);
      [reflexivity|reflexivity|exact Hh3|cbn [p_size]; lia|cbn [p_ids]; now rewrite cell_ids_length]. }
  worlds. cbn [p_ids p_size p_attrs p_rels].
  (* the cities *)
  destruct (next_seed sd3) as [s4 sd4]. eapply does_step; [apply alloc_gen_eq|]. worlds.
  eapply does_step.
  { eapply leaf_generate; [reflexivity|apply oracle_step]. }
  worlds. fold (city_ids src).
  eapply does_weaken; [|intros a w' X; exact X|eapply does_bind; [apply population_ids_does, city_ids_NoDup|]].
  { worlds. instantiate (1 := True). unfold dmem. rewrite dget_dset. change (keqb "cities"%string "cells"%string) with false. tauto. }
  intros cities w2 _ (-> & ->). worlds.
  match goal with |- does _ ?W _ _ => edestruct (relationship_eq "CELLS" (pops ++ [_]) _ [] W eq_refl) as (rs & rsd & Er) end.
  eapply does_step; [exact Er|]. clear Er. worlds. cbn [p_ids p_size p_attrs p_rels].
  eapply does_step.
  { apply deref_eq. worlds. rewrite <- app_assoc. apply nth_mid. }
  eapply does_step.
  { apply deref_eq. worlds. apply nth_mid. }
  cbn [p_ids].
  destruct (next_seed sd4) as [s5 sd5].
  destruct (make_random_assign_total cell_ids (city_ids src) (random_state pg s5)) as (assigned & ast & Ea); [left; apply city_ids_some|].
  destruct (make_random_assign_spec _ _ _ _ _ Ea) as [Ha1 Ha2].
  eapply does_step; [unfold lift; rewrite Ea; reflexivity|].
  destruct (add_relations_ok (new_relationship pg rs) (map snd assigned) (map fst assigned) (WScalar 1)) as (rel & Erel);
    [now rewrite !map_length|cbn [weights_list]; now rewrite repeat_length|].
  eapply does_step; [eapply rel_add_eq; [reflexivity|exact Erel]|]. worlds.
  destruct (next_seed sd5) as [s6 sd6]. eapply does_step; [apply alloc_gen_eq|]. worlds.
  destruct (pareto_step (Q2Qc 10000) (lomax_1_4 src) (random_state pg s6) (length (city_ids src))) as (xs & pst & Hx1 & Hx2).
  eapply does_step.
  { eapply attribute_eq; [reflexivity|reflexivity|exact Hx2|cbn [p_size]|cbn [p_ids]].
    - pose proof (city_ids_some src). destruct (city_ids src); [easy|]. cbn [length]. lia.
    - unfold pareto_values. now rewrite !map_length. }
  worlds. cbn [p_ids p_size p_attrs p_rels].
  eapply does_eq; [reflexivity|]. unfold Q.
  exists healths, (map VNum (pareto_values (Q2Qc 10000) (lomax_1_4 src) xs)), assigned, rel, rs, rsd. eexists. split; [|split; [|split; [|split; [|split; [|split; [|split; [|split]]]]]]].
  - rewrite app_length. cbn [length]. repeat f_equal. lia.
  - now rewrite cell_ids_length.
  - exact Hh2.
  - unfold pareto_values. now rewrite !map_length.
  - apply Forall_forall. intros v Hv. apply in_map_iff in Hv as (q & <- & Hq). unfold pareto_values in Hq. apply in_map_iff in Hq as (x & <- & _). now exists x.
  - exact Ha1.
  - exact Ha2.
  - exact Erel.
  - clear Q. worlds. rewrite !app_length. cbn [length]. rewrite <- !app_assoc. cbn [app].
    replace (length attrs + 1 + 1 + 1) with (3 + length attrs) by lia. replace (length attrs + 1 + 1) with (2 + length attrs) by lia.
    replace (length attrs + 1) with (1 + length attrs) by lia. replace (length pops + 1) with (S (length pops)) by lia.
    rewrite cell_ids_length. reflexivity.
Qed.

Lemma runs_seed w : exists s sd, next_of_seeder w = (Ok s, set_seeder sd w).
Proof. unfold next_of_seeder, bindM, get, modify, ret. destruct (next_seed (w_seeder w)) as [x sd]. eauto. Qed.
Lemma set_operations_eq a ops w s : nth_error (w_stories w) a = Some s ->
  set_operations a ops w = (Ok tt, set_stories (set_nth a (with_ops s (ops ++ [OpBack a (length (w_gens w))])) (w_stories w))
    (set_gens (w_gens w ++ [GNumpy NpUniform (random_state (w_prng w) 1234) None]) w)).
Proof. intros H. unfold set_operations, bindM, deref, get, modify, put_story. now rewrite H. Qed.
Lemma get_attribute_eq p name w po a : nth_error (w_pops w) p = Some po -> dget name (p_attrs po) = Some a -> get_attribute p name w = (Ok a, w).
Proof. intros H E. unfold get_attribute, bindM, deref, lift. now rewrite H, E. Qed.
Lemma nth_mid2 {A} (l : list A) a b c r : nth_error (l ++ a :: b :: r) (length (l ++ [c])) = Some b.
Proof. rewrite app_length. cbn [length]. rewrite nth_error_app2 by lia. now replace (length l + 1 - length l) with 1 by lia. Qed.
Lemma set_mid2 {A} (l : list A) a b c d r : set_nth (length (l ++ [c])) d (l ++ a :: b :: r) = l ++ a :: d :: r.
Proof. induction l as [|x l IH]; cbn [app length set_nth]; [reflexivity|]. f_equal. exact IH. Qed.
Lemma static_sym s s' : static s s' -> static s' s.
Proof. unfold static. intuition congruence. Qed.

(** ** The whole geography *)

Lemma scaled (l : Qc) (c : Q) : (this ((l + 1) * Q2Qc c)%Qc == (this l + 1) * c)%Q.
Proof. unfold Qcmult, Qcplus, Q2Qc. cbn [this]. rewrite !Qred_correct. reflexivity. Qed.
Lemma busy_values src : positive_laws src -> forall q, (exists x, q = this ((lomax_1_4 src x + 1) * Q2Qc 5)%Qc) -> busy q.
Proof. intros H q (x & ->). destruct (H x) as [Hx _]. unfold busy. rewrite scaled. lra. Qed.
Lemma busy_repairs src : positive_laws src -> forall q, (exists x, q = this ((lomax_1_2 src x + 1) * Q2Qc 100)%Qc) -> busy q.
Proof. intros H q (x & ->). destruct (H x) as [_ Hx]. unfold busy. rewrite scaled. lra. Qed.
Lemma simple_weaken s (P P' : Q -> Prop) : (forall q, P q -> P' q) -> simple s P -> simple s P'.
Proof. intros H (H1 & H2 & H3 & H4). repeat split; eauto. Qed.

Definition health_law (src : sources) (w : world) (u : nat) : Prop :=
  exists st, nth_error (w_gens w) u = Some (GNumpy (NpOther (beta_1_999 src)) st None).

Definition judge_law (w : world) (bk : nat) : Prop := exists st, nth_error (w_gens w) bk = Some (GNumpy NpUniform st None).
Lemma add_judges_does src w : does (add_uganda_geography src true) w (geography_free w)
  (fun r w' => exists healths sizes assigned rel s sd gens st0 y bins g u h bk bk' sb sr,
     r = (length (w_pops w), S (length (w_pops w))) /\
     length healths = length cell_ids /\ Forall (fun v => exists x, v = VNum (beta_1_999 src x)) healths /\
     length sizes = length (city_ids src) /\ Forall (fun v => exists x, v = VNum ((lomax_1_4 src x + 1) * Q2Qc 10000)%Qc) sizes /\
     map fst assigned = cell_ids /\ Forall (fun p => In (snd p) (city_ids src)) assigned /\
     add_relations (new_relationship (w_prng w) s) (map snd assigned) (map fst assigned) (WScalar 1) = Ok rel /\
     new_cyclic uganda_profile (c_date (w_clock w)) (c_step (w_clock w)) st0 = Ok y /\ y_bins y = bins /\
     cyclic_at uganda_profile (c_date (w_clock w)) (c_step (w_clock w)) 0 bins g /\
     plain "cell_break_down" (length (w_pops w)) (length (w_tgens w)) true cell_ids (Q2Qc 5) (lomax_1_4 src) sb /\
     (positive_laws src -> forall i, In i cell_ids -> exists n, n < bins /\ remaining_of sb i = Some (Some (Z.of_nat n))) /\
     plain "cell_repair_down" (length (w_pops w)) (length (w_tgens w)) false cell_ids (Q2Qc 100) (lomax_1_2 src) sr /\
     health_law src w' u /\ health_law src w' h /\ length (w_gens w) <= u < length (w_gens w') /\ length (w_gens w) <= h < length (w_gens w') /\
     w' = mkWorld (w_prng w) sd (register_listener (w_clock w) (length (w_tgens w)))
       (w_attrs w ++ [combine cell_ids (map (latitudes src) (seq 0 (length cell_ids))); combine cell_ids (map (longitudes src) (seq 0 (length cell_ids)));
                      combine cell_ids healths; combine (city_ids src) sizes])
       (w_rels w ++ [rel]) (w_gens w ++ gens) (w_dgens w) (w_tgens w ++ [g])
       (w_pops w ++ [mkPop cell_ids n_cells [("latitude"%string, length (w_attrs w)); ("longitude"%string, 1 + length (w_attrs w));
                                              ("HEALTH"%string, 2 + length (w_attrs w))] [];
                     mkPop (city_ids src) (Z.of_nat (length (city_ids src))) [("population"%string, 3 + length (w_attrs w))]
                       [("CELLS"%string, length (w_rels w))]])
       (w_stories w ++ [with_ops sb (break_down_ops src u (2 + length (w_attrs w)) (S (length (w_stories w))) ++ [OpBack (length (w_stories w)) bk]);
                        with_ops sr (repair_ops src h (2 + length (w_attrs w)) ++ [OpBack (S (length (w_stories w))) bk'])])
       (dset "cities"%string (S (length (w_pops w))) (dset "cells"%string (length (w_pops w)) (w_pop_names w))) (w_gen_names w) /\ judge_law w' bk /\ judge_law w' bk').
Proof.
  match goal with |- does _ _ _ ?X => set (Q := X) end.
  unfold add_uganda_geography, uganda_populations. eapply does_step; [reflexivity|].
  eapply does_weaken; [|intros a w' X; exact X|eapply does_bind; [apply build_does|]].
  { unfold geography_free. instantiate (1 := can_start uganda_profile (w_clock w) /\ ~ In "cell_break_down"%string (map st_name (w_stories w)) /\ ~ In "cell_repair_down"%string (map st_name (w_stories w))). tauto. }
  intros r w1 Hfree (healths & sizes & assigned & rel & s & sd & gens & -> & H1 & H2 & H3 & H4 & H5 & H6 & H7 & ->).
  destruct w as [pg sd0 ck attrs rels gens0 dgens tgens pops stories names gnames]. worlds. cbn [w_stories w_clock w_pop_names] in *.
  eapply does_bind; [apply (alloc_cyclic_does uganda_profile)|]. worlds. intros t w2 Hstart (sd1 & st0 & y & -> & Hy & ->). worlds.
  assert (Hcy : cyclic_at uganda_profile (c_date ck) (c_step ck) 0 (y_bins y) (TCyclic y)) by (exists y; split; [eapply live_new; eauto|auto]).
  destruct (next_seed (random_state pg 12345)) as [z1 sz1]. eapply does_step; [apply alloc_gen_eq|]. worlds.
  destruct (next_seed sz1) as [z2 sz2]. eapply does_step; [apply alloc_gen_eq|]. worlds.
  match goal with |- does _ ?W _ _ => destruct (runs_seed W) as (q1 & sd2 & Eq1) end. eapply does_step; [exact Eq1|]. clear Eq1. worlds.
  eapply does_bind.
  { eapply (plain_story_does "cell_break_down" pops); [reflexivity|cbn [p_size p_ids]|cbn [p_ids]; apply cell_ids_NoDup|worlds; apply nth_mid|exact Hcy].
    rewrite cell_ids_length. pose proof n_cells_pos. lia. }
  intros ab w3 Hb (sb & bst & g1 & -> & Hg1 & Hsb & Hauto & ->). worlds. specialize (Hauto eq_refl). cbn [p_ids] in Hsb.
  match goal with |- does _ ?W _ _ => destruct (runs_seed W) as (q2 & sd3 & Eq2) end. eapply does_step; [exact Eq2|]. clear Eq2. worlds.
  eapply does_weaken; [|intros a w' X; exact X|eapply does_bind].
  2:{ eapply (plain_story_does "cell_repair_down" pops); [reflexivity|cbn [p_size p_ids]|cbn [p_ids]; apply cell_ids_NoDup|worlds|exact Hg1].
    - rewrite cell_ids_length. pose proof n_cells_pos. lia.
    - rewrite set_mid. apply nth_mid. }
  { worlds. instantiate (1 := True). rewrite map_app, in_app_iff. destruct Hsb as (Nb & _). cbn [map In]. rewrite Nb.
    split; [tauto|]. intros X. split; [|exact I]. intros [Y|[Y|[]]]; [contradiction|discriminate]. }
  intros ar w4 Hr (sr & rst & g2 & -> & Hg2 & Hsr & _ & ->). worlds. cbn [p_ids] in Hsr. rewrite !set_mid.
  eapply does_step.
  { eapply get_attribute_eq; [worlds; apply nth_mid|reflexivity]. }
  eapply does_step; [apply set_operations_eq; worlds; rewrite <- app_assoc; apply nth_mid|]. worlds.
  eapply does_step.
  { eapply get_attribute_eq; [worlds; apply nth_mid|reflexivity]. }
  rewrite <- !app_assoc. cbn [app]. rewrite set_mid.
  eapply does_step; [apply (set_operations_eq _ _ _ sr); worlds; apply nth_mid2|]. worlds. rewrite set_mid2.
  eapply does_eq; [reflexivity|]. unfold Q. clear Q. worlds.
  exists healths, sizes, assigned, rel, s. eexists. eexists (gens ++ _), st0, y, (y_bins y), g2, (length (gens0 ++ gens)), (length (gens0 ++ gens ++ [unhealthy_level_gen src pg z1])).
  eexists _, _, sb, sr.
  assert (Hc5 : positive_laws src -> forall i, In i cell_ids -> exists n, n < y_bins y /\ remaining_of sb i = Some (Some (Z.of_nat n))).
  { intros Hpos i Hi. destruct Hauto as (s0 & g0 & Hg0 & Er & Hst & Hf). destruct Hsb as (_ & _ & _ & _ & _ & _ & _ & Hids & Hsim & _).
    eapply reset_within; [|exact Hg0|exact Er|exact I|].
    - eapply simple_weaken; [apply (busy_values src Hpos)|]. eapply simple_static; [apply static_sym; exact Hst|exact Hsim].
    - apply reset_addressed. rewrite Hf. split; [|intros []]. pose proof Hst as (_&_&_&_&_&_&_&_&S9). rewrite <- S9, Hids. exact Hi. }
  split; [reflexivity|]. do 7 (split; [assumption|]). split; [exact Hy|]. split; [reflexivity|]. split; [exact Hg2|].
  split; [exact Hsb|]. split; [exact Hc5|]. split; [exact Hsr|].
  match goal with |- health_law _ ?W _ /\ _ => set (W0 := W) end.
  assert (G : exists tl, w_gens W0 = gens0 ++ gens ++ unhealthy_level_gen src pg z1 :: healthy_level_gen src pg z2 :: tl).
  { subst W0. worlds. eexists. rewrite <- ?app_assoc. cbn [app]. rewrite <- ?app_assoc. cbn [app]. reflexivity. }
  destruct G as (tl & G).
  split; [eexists; rewrite G, app_assoc; apply nth_mid|].
  split; [eexists; rewrite G; rewrite !app_length; cbn [length]; rewrite !nth_error_app2 by lia;
          replace (length gens0 + (length gens + 1) - length gens0 - length gens) with 1 by lia; reflexivity|].
  split; [rewrite !app_length; cbn [length]; lia|]. split; [rewrite !app_length; cbn [length]; lia|].
  split.
  { subst W0. worlds. replace (length (stories ++ [sb])) with (S (length stories)) by (rewrite app_length; cbn [length]; lia).
    rewrite <- !app_assoc. cbn [app]. reflexivity. }
  subst W0. unfold judge_law. worlds.
  split; eexists; [|apply nth_mid].
  rewrite nth_error_app1 by (rewrite !app_length; cbn [length]; lia). rewrite !app_length. cbn [length]. rewrite nth_error_app2 by lia. rewrite nth_error_app2 by lia.
  replace (length gens0 + (length gens + 6) - length gens0 - length gens) with 6 by lia. reflexivity.
Qed.
Lemma add_does src w : does (add_uganda_geography src true) w (geography_free w)
  (fun r w' => exists healths sizes assigned rel s sd gens st0 y bins g u h bk bk' sb sr,
     r = (length (w_pops w), S (length (w_pops w))) /\
     length healths = length cell_ids /\ Forall (fun v => exists x, v = VNum (beta_1_999 src x)) healths /\
     length sizes = length (city_ids src) /\ Forall (fun v => exists x, v = VNum ((lomax_1_4 src x + 1) * Q2Qc 10000)%Qc) sizes /\
     map fst assigned = cell_ids /\ Forall (fun p => In (snd p) (city_ids src)) assigned /\
     add_relations (new_relationship (w_prng w) s) (map snd assigned) (map fst assigned) (WScalar 1) = Ok rel /\
     new_cyclic uganda_profile (c_date (w_clock w)) (c_step (w_clock w)) st0 = Ok y /\ y_bins y = bins /\
     cyclic_at uganda_profile (c_date (w_clock w)) (c_step (w_clock w)) 0 bins g /\
     plain "cell_break_down" (length (w_pops w)) (length (w_tgens w)) true cell_ids (Q2Qc 5) (lomax_1_4 src) sb /\
     (positive_laws src -> forall i, In i cell_ids -> exists n, n < bins /\ remaining_of sb i = Some (Some (Z.of_nat n))) /\
     plain "cell_repair_down" (length (w_pops w)) (length (w_tgens w)) false cell_ids (Q2Qc 100) (lomax_1_2 src) sr /\
     health_law src w' u /\ health_law src w' h /\ length (w_gens w) <= u < length (w_gens w') /\ length (w_gens w) <= h < length (w_gens w') /\
     w' = mkWorld (w_prng w) sd (register_listener (w_clock w) (length (w_tgens w)))
       (w_attrs w ++ [combine cell_ids (map (latitudes src) (seq 0 (length cell_ids))); combine cell_ids (map (longitudes src) (seq 0 (length cell_ids)));
                      combine cell_ids healths; combine (city_ids src) sizes])
       (w_rels w ++ [rel]) (w_gens w ++ gens) (w_dgens w) (w_tgens w ++ [g])
       (w_pops w ++ [mkPop cell_ids n_cells [("latitude"%string, length (w_attrs w)); ("longitude"%string, 1 + length (w_attrs w));
                                              ("HEALTH"%string, 2 + length (w_attrs w))] [];
                     mkPop (city_ids src) (Z.of_nat (length (city_ids src))) [("population"%string, 3 + length (w_attrs w))]
                       [("CELLS"%string, length (w_rels w))]])
       (w_stories w ++ [with_ops sb (break_down_ops src u (2 + length (w_attrs w)) (S (length (w_stories w))) ++ [OpBack (length (w_stories w)) bk]);
                        with_ops sr (repair_ops src h (2 + length (w_attrs w)) ++ [OpBack (S (length (w_stories w))) bk'])])
       (dset "cities"%string (S (length (w_pops w))) (dset "cells"%string (length (w_pops w)) (w_pop_names w))) (w_gen_names w)).
Proof.
  eapply does_weaken; [reflexivity| |apply add_judges_does]. cbv beta.
  intros r w' (healths & sizes & assigned & rel & s & sd & gens & st0 & y & bins & g & u & h & bk & bk' & sb & sr & H). exists healths, sizes, assigned, rel, s, sd, gens, st0, y, bins, g, u, h, bk, bk', sb, sr.
  destruct H as (?&?&?&?&?&?&?&?&?&?&?&?&?&?&?&?&?&?&?&?&?). repeat (split; [assumption|]). assumption.
Qed.
