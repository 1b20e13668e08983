(** What the construction of the geography does, step by step. *)
From Verif Require Import Base BaseFacts Rng RngFacts Utils UtilsFacts Relationship RelationshipFacts SpecRelationship RelationshipProps
  Frame Gens GensProps Clock SpecClock ClockProps Attribute AttributeFacts World Story Ops OpsFacts Fs Circus SpecStory StoryFacts StoryExec
  StoryProps SpecOps OpsProps OpsColumns OpsMore StoryMore StoryStates StoryBack StoryDelay StoryNew PopMore Geography SpecWorld SpecPopulation SpecGeography.
From Coq Require Import Permutation Lqa Qround.
Local Open Scope nat_scope.

(** [m] succeeds exactly when [P] holds, and then ends as [Q] says. *)
Definition does {A} (m : M A) (w : world) (P : Prop) (Q : A -> world -> Prop) : Prop :=
  (P /\ exists a w', m w = (Ok a, w') /\ Q a w') \/ (~ P /\ exists e w', m w = (Err e, w')).

Lemma bind_eq {A B} (m : M A) (f : A -> M B) w a w' : m w = (Ok a, w') -> bindM m f w = f a w'.
Proof. intros H. unfold bindM. now rewrite H. Qed.
Lemma does_eq {A} (m : M A) w (Q : A -> world -> Prop) a w' : m w = (Ok a, w') -> Q a w' -> does m w True Q.
Proof. intros H HQ. left. split; [exact I|]. eauto. Qed.
Lemma does_step {A B} (m : M A) (f : A -> M B) w a w' P Q : m w = (Ok a, w') -> does (f a) w' P Q -> does (bindM m f) w P Q.
Proof. intros H D. unfold does, bindM in *. now rewrite H. Qed.
Lemma does_bind {A B} (m : M A) (f : A -> M B) w P1 Q1 P2 Q2 : does m w P1 Q1 ->
  (forall a w', P1 -> Q1 a w' -> does (f a) w' P2 Q2) -> does (bindM m f) w (P1 /\ P2) Q2.
Proof.
  intros [(H1 & a & w1 & E & H)|(N & e & w1 & E)] Hf.
  - destruct (Hf a w1 H1 H) as [(H2 & b & w2 & E2 & HQ)|(N2 & e & w2 & E2)].
    + left. split; [auto|]. exists b, w2. split; [|exact HQ]. unfold bindM. now rewrite E.
    + right. split; [tauto|]. exists e, w2. unfold bindM. now rewrite E.
  - right. split; [tauto|]. exists e, w1. unfold bindM. now rewrite E.
Qed.
Lemma does_weaken {A} (m : M A) w P P' (Q Q' : A -> world -> Prop) : (P <-> P') -> (forall a w', Q a w' -> Q' a w') ->
  does m w P Q -> does m w P' Q'.
Proof. intros HP HQ [(H & a & w' & E & K)|(N & e & w' & E)]; [left|right]; (split; [tauto|]); eauto. Qed.
Lemma does_ok {A} (m : M A) w P Q a w' : does m w P Q -> m w = (Ok a, w') -> P /\ Q a w'.
Proof.
  intros [(H & b & w1 & E & K)|(N & e & w1 & E)] H'; rewrite H' in E; [|discriminate]. injection E as <- <-. auto.
Qed.
Lemma does_runs {A} (m : M A) w P Q : does m w P Q -> P -> exists a w', m w = (Ok a, w') /\ Q a w'.
Proof. intros [(H & K)|(N & e & w1 & E)] H'; [exact K|contradiction]. Qed.

Lemma nth_mid {A} (l : list A) x r : nth_error (l ++ x :: r) (length l) = Some x.
Proof. rewrite nth_error_app2 by lia. now rewrite Nat.sub_diag. Qed.
Lemma set_mid {A} (l : list A) x y r : set_nth (length l) y (l ++ x :: r) = l ++ y :: r.
Proof. induction l as [|z l IH]; cbn; [reflexivity|]. now rewrite IH. Qed.

Lemma leaf_gen h x rest n vs x' : gen_step x n = Ok (vs, x') ->
  gen_generate (h ++ x :: rest) (length h) n = Ok (vs, h ++ x' :: rest).
Proof.
  intros H. unfold gen_generate. cbn [heap_generate]. rewrite nth_mid.
  destruct x; try (rewrite H; cbn [bind]; now rewrite set_mid); discriminate H.
Qed.
Lemma leaf_generate w h x rest n vs x' : w_gens w = h ++ x :: rest -> gen_step x n = Ok (vs, x') ->
  generate (length h) n w = (Ok vs, set_gens (h ++ x' :: rest) w).
Proof.
  intros Hw H. unfold generate, bindM, get, lift, modify, ret. rewrite Hw, (leaf_gen _ _ _ _ _ _ H). reflexivity.
Qed.

Lemma alloc_gen_eq x w : alloc_gen x w = (Ok (length (w_gens w)), set_gens (w_gens w ++ [x]) w).
Proof. reflexivity. Qed.

Lemma population_gen_does name h x n vs x' w : w_gens w = h ++ [x] -> gen_step x n = Ok (vs, x') -> n <> 0%Z -> NoDup vs ->
  does (create_population name (Some (length h)) (Some n) None) w (dmem name (w_pop_names w) = false)
    (fun p w' => p = length (w_pops w) /\
       w' = set_pop_names (dset name (length (w_pops w)) (w_pop_names w))
              (set_pops (w_pops w ++ [mkPop vs n [] []]) (set_gens (h ++ [x']) w))).
Proof.
  intros Hg Hx Hn Nd. unfold create_population. destruct (dmem name (w_pop_names w)) eqn:Ed.
  - right. split; [discriminate|]. unfold bindM, get. rewrite Ed. now exists ValueError, w.
  - left. split; [reflexivity|].
    assert (E : new_population (Some (length h)) (Some n) None w =
      (Ok (length (w_pops w)), set_pops (w_pops w ++ [mkPop vs n [] []]) (set_gens (h ++ [x']) w))).
    { unfold new_population. destruct n as [|q|q]; [easy| |]; unfold bindM;
        rewrite (leaf_generate _ _ _ _ _ _ _ Hg Hx); unfold alloc_pop; apply nodupb_NoDup in Nd; rewrite Nd; reflexivity. }
    unfold bindM, get. rewrite Ed, E. eexists _, _. split; [reflexivity|]. split; reflexivity.
Qed.
Lemma population_ids_does name ids w : NoDup ids ->
  does (create_population name None None (Some ids)) w (dmem name (w_pop_names w) = false)
    (fun p w' => p = length (w_pops w) /\
       w' = set_pop_names (dset name (length (w_pops w)) (w_pop_names w))
              (set_pops (w_pops w ++ [mkPop ids (Z.of_nat (length ids)) [] []]) w)).
Proof.
  intros Nd. unfold create_population. destruct (dmem name (w_pop_names w)) eqn:Ed.
  - right. split; [discriminate|]. unfold bindM, get. rewrite Ed. now exists ValueError, w.
  - left. split; [reflexivity|]. apply nodupb_NoDup in Nd. unfold bindM, get, new_population, alloc_pop. rewrite Ed, Nd.
    eexists _, _. split; [reflexivity|]. split; reflexivity.
Qed.

Lemma attribute_eq name h x vs x' l po r w : w_gens w = h ++ [x] -> w_pops w = l ++ po :: r ->
  gen_step x (p_size po) = Ok (vs, x') -> p_size po <> 0%Z -> length vs = length (p_ids po) ->
  create_attribute (length l) name None (Some (length h)) None w =
  (Ok (length (w_attrs w)),
   set_pops (l ++ mkPop (p_ids po) (p_size po) (dset name (length (w_attrs w)) (p_attrs po)) (p_rels po) :: r)
     (set_attrs (w_attrs w ++ [combine (p_ids po) vs]) (set_gens (h ++ [x']) w))).
Proof.
  intros Hg Hp Hx Hn Hl. unfold create_attribute, attr_table, bindM at 1 2, deref. rewrite Hp, nth_mid.
  apply Z.eqb_neq in Hn. rewrite Hn. unfold bindM at 1. rewrite (leaf_generate _ _ _ _ _ _ _ Hg Hx).
  unfold lift, table_of. rewrite Hl, Nat.eqb_refl. unfold bindM, get, modify, put_pop, ret. cbn [w_pops set_gens].
  rewrite Hp, nth_mid. cbn -[dset combine set_nth]. rewrite Hp, set_mid. reflexivity.
Qed.

Lemma relationship_eq name l po r w : w_pops w = l ++ po :: r ->
  exists s sd, create_relationship (length l) name None w =
  (Ok (length (w_rels w)),
   set_pops (l ++ mkPop (p_ids po) (p_size po) (p_attrs po) (dset name (length (w_rels w)) (p_rels po)) :: r)
     (set_rels (w_rels w ++ [new_relationship (w_prng w) s]) (set_seeder sd w))).
Proof.
  intros Hp. assert (E : nth_error (w_pops w) (length l) = Some po) by (rewrite Hp; apply nth_mid).
  destruct (PopFacts.create_rel_world (length l) name None w po E) as (s & sd & X). exists s, sd. rewrite X.
  rewrite Hp, set_mid. reflexivity.
Qed.

Lemma rel_add_eq w l rel froms tos rel' : w_rels w = l ++ [rel] -> add_relations rel froms tos (WScalar 1) = Ok rel' ->
  rel_add (length l) froms tos w = (Ok tt, set_rels (l ++ [rel']) w).
Proof.
  intros Hw H. unfold rel_add, bindM, deref, lift, put_rel, modify. rewrite Hw, nth_mid, H, Hw, set_mid. reflexivity.
Qed.

(** ** A story with one state *)
Definition one_state (acts : list (Q * Q)) : list (string * list (Q * Q)) := [("default"%string, acts)].
Lemma params_one ids : forall acts, length acts = length ids ->
  params_table ids (one_state acts) = combine ids (map (fun ab => [("default"%string, ab)]) acts).
Proof.
  induction ids as [|i ids IH]; intros [|ab acts] H; cbn in H; try discriminate; [reflexivity|].
  cbn [params_table one_state flat_map snd fst map combine tl app]. f_equal. apply (IH acts). lia.
Qed.
Lemma dget_combine {V} (ids : list val) : forall (xs : list V) i, length xs = length ids -> In i ids ->
  exists x, dget i (combine ids xs) = Some x /\ In x xs.
Proof.
  induction ids as [|j ids IH]; intros [|x xs] i H Hi; cbn in H; try discriminate; [destruct Hi|].
  cbn [combine dget]. destruct (keqb_spec i j) as [E|N]; [exists x; split; [reflexivity|now left]|].
  destruct Hi as [Hi|Hi]; [congruence|]. destruct (IH xs i ltac:(lia) Hi) as (y & E & Hy). exists y. split; [exact E|now right].
Qed.

(** Every member the story knows has a declared activity in its only state. *)
Definition simple (s : story) (P : Q -> Prop) : Prop :=
  st_states s = ["default"%string] /\ NoDup (st_ids s) /\
  (forall i, In i (st_ids s) -> exists q, declared s Activity i "default" = Some q) /\
  (forall i st q, activity_in s i st q -> P q).

Lemma simple_static s s' P : static s s' -> simple s P -> simple s' P.
Proof.
  intros (S1&S2&S3&S4&S5&S6&S7&S8&S9) (H1 & H2 & H3 & H4).
  assert (D : forall i, declared s' Activity i "default" = declared s Activity i "default") by (intros; unfold declared; now rewrite S7).
  split; [congruence|]. split; [congruence|]. split; [|intros i st q; unfold activity_in; rewrite S7; apply H4].
  intros i Hi. rewrite D. apply H3. congruence.
Qed.

Lemma simple_params s P ids : simple s P -> (forall i, In i ids -> In i (st_ids s)) ->
  exists act, get_param s Activity ids = Ok act /\ map fst act = ids /\ (forall i q, In (i, q) act -> P q).
Proof.
  intros (H1 & H2 & H3 & H4) Hi. unfold get_param, get_possible_states. rewrite H1. cbn [length Nat.eqb].
  induction ids as [|i ids IH]; [exists []; repeat split; intros ? ? []|].
  destruct (H3 i) as (q & Eq); [apply Hi; now left|]. destruct IH as (act & Ea & Ek & Ep); [intros; apply Hi; now right|].
  exists ((i, q) :: act). cbn [mapr]. rewrite Eq. cbn [bind]. rewrite Ea. split; [reflexivity|]. split; [cbn; now f_equal|].
  intros j r [[= <- <-]|H]; [eapply H4, declared_activity; eauto|eapply Ep; eauto].
Qed.

Lemma known_In s ids : (forall i, In i ids -> In i (st_ids s)) -> known s ids = true.
Proof. intros H. apply forallb_forall. intros i Hi. apply mem_In. auto. Qed.

Lemma reset_runs s P p start cstep k bins g oids : simple s P -> cyclic_at p start cstep k bins g ->
  match oids with Some l => NoDup l /\ incl l (st_ids s) | None => True end ->
  exists s' g', reset_timers s g oids = Ok (s', g') /\ cyclic_at p start cstep k bins g'.
Proof.
  intros Hs (y & Hl & Hb & ->) Ho. unfold reset_timers. fold (reset_ids s oids).
  assert (Hin : forall i, In i (reset_ids s oids) -> In i (st_ids s)).
  { intros i Hi. apply reset_addressed in Hi as [Hi _]. destruct oids; [now apply Ho|exact Hi]. }
  assert (Nr : NoDup (reset_ids s oids)).
  { unfold reset_ids. apply index_difference_NoDup. destruct oids; [apply Ho|apply Hs]. }
  destruct (reset_ids s oids) as [|x xs] eqn:E; [exists s, (TCyclic y); split; [reflexivity|exists y; auto]|].
  rewrite <- E in *. destruct (simple_params s P (reset_ids s oids) Hs Hin) as (act & Ea & Ek & _). rewrite Ea. cbn [bind].
  rewrite <- Ek in Nr. destruct (generate_timers p start cstep k y act Hl Nr) as (ts & y' & Eg & _ & _).
  cbn [tgen_generate]. rewrite Eg. cbn [bind]. rewrite (known_In _ _ Hin). cbn [negb].
  eexists _, _. split; [reflexivity|]. exists y'. split; [eapply live_generate; eauto|]. split; [|reflexivity].
  unfold cyclic_generate in Eg. destruct (draws uniform _ _). destruct (draws Rng.beta _ _).
  apply bind_ok in Eg as (ts' & _ & H). injection H as _ <-. exact Hb.
Qed.

(** Activities above 2 give delays shorter than a cycle. *)
Definition busy (q : Q) : Prop := (2 < q)%Q.
Lemma ceiling_busy q : busy q -> Qceiling (2 / q) = 1%Z.
Proof.
  intros H. unfold busy in H. assert (0 < q)%Q by lra.
  assert (A : (2 / q <= 1)%Q) by (apply Qle_shift_div_r; [assumption|lra]).
  assert (B : (0 < 2 / q)%Q) by (apply Qlt_shift_div_l; [assumption|lra]).
  assert (C : (Qceiling (2 / q) <= 1)%Z) by (change 1%Z with (Qceiling 1); now apply Qceiling_resp_le).
  assert (D : (0 < Qceiling (2 / q))%Z).
  { rewrite Zlt_Qlt. eapply Qlt_le_trans; [exact B|]. apply Qle_ceiling. }
  lia.
Qed.

Lemma reset_within s p start cstep k bins g oids s' g' : simple s busy -> cyclic_at p start cstep k bins g ->
  reset_timers s g oids = Ok (s', g') -> match oids with Some l => NoDup l | None => True end ->
  forall i, In i (reset_ids s oids) -> exists n, n < bins /\ remaining_of s' i = Some (Some (Z.of_nat n)).
Proof.
  intros Hs (y & Hl & Hb & ->) H Ho i Hi. destruct (reset_rows _ _ _ _ _ H (proj1 (proj2 Hs)) Ho) as (act & cnt & Hk & Hg & Hv & Hr & _).
  destruct (Hr i Hi) as (q & t & Hq & Ht & E).
  assert (Hbq : busy q).
  { destruct Hs as (H1 & H2 & H3 & H4). destruct (Hv i q Hq) as (st & Hst & Hdec).
    unfold effective_state, get_possible_states in Hst. rewrite H1 in Hst. cbn [length Nat.eqb] in Hst.
    destruct (mem i (dkeys (st_params s))); [|discriminate]. injection Hst as <-. eapply H4, declared_activity; eauto. }
  assert (Hne : act <> []) by (intros ->; destruct Hq). specialize (Hg Hne).
  assert (Nda : NoDup (map fst act)).
  { rewrite Hk. unfold reset_ids. apply index_difference_NoDup. destruct oids; [exact Ho|apply Hs]. }
  cbn [tgen_generate] in Hg. apply bind_ok in Hg as ([ts y'] & Hg & Eg). injection Eg as <- _.
  destruct (generate_timers p start cstep k y act Hl Nda) as (ts0 & y0 & E0 & L0 & HF).
  assert (ts0 = ts) by congruence. subst ts0.
  assert (Ht' : match t with None => (q <= 0)%Q | Some z => (0 < q)%Q /\ (0 <= z < Z.of_nat (y_bins y) * Qceiling (2 / q))%Z end).
  { clear -HF L0 Nda Hq Ht. revert L0 Nda Hq Ht. induction HF as [|o u obs ts Hou HF IH]; intros L Nd Hi Ht; [destruct Hi|].
    cbn in L. injection L as L1 L2. cbn in Nd. inversion Nd as [|? ? N1 N2]; subst.
    destruct Hi as [->|Hi], Ht as [->|Ht].
    - exact Hou.
    - exfalso. apply N1. cbn [fst] in *. rewrite <- L2. now apply (in_map fst _ _ Ht).
    - exfalso. apply N1. cbn [fst] in *. rewrite <- L1. now apply (in_map fst _ _ Hi).
    - now apply IH. }
  assert (Hz : Qeq_bool q 0 = false).
  { apply not_true_is_false. intros X. apply Qeq_bool_iff in X. unfold busy in Hbq. lra. }
  rewrite Hz in E. destruct t as [z|]; [|exfalso; unfold busy in Hbq; lra].
  rewrite (ceiling_busy q Hbq), Hb in Ht'. exists (Z.to_nat z). split; [lia|]. rewrite E. do 2 f_equal. lia.
Qed.

(** ** One story of the geography *)
Definition pareto_values (xmin : Qc) (lomax : N -> Qc) (xs : list N) : list Qc := map (fun x => (lomax x + 1) * xmin)%Qc xs.
Lemma pareto_step xmin lomax st n : exists xs st', length xs = n /\
  gen_step (GPareto xmin false lomax st) (Z.of_nat n) = Ok (map VNum (pareto_values xmin lomax xs), GPareto xmin false lomax st').
Proof.
  cbn [gen_step]. replace (Z.of_nat n <? 0)%Z with false by (symmetry; apply Z.ltb_ge; lia). rewrite Nat2Z.id.
  destruct (draws next_raw n st) as [xs st'] eqn:E. exists xs, st'. split; [eapply draws_length; eauto|]. reflexivity.
Qed.
Lemma mapr_nums l : mapr as_Q (map VNum l) = Ok (map this l).
Proof. induction l as [|x l IH]; cbn [map mapr]; [reflexivity|]. cbn [as_Q bind]. now rewrite IH. Qed.

Definition plain (name : string) (p t : nat) (auto : bool) (ids : list val) (xmin : Qc) (lomax : N -> Qc) (s : story) : Prop :=
  st_name s = name /\ st_pop s = p /\ st_field s = "CELL_ID"%string /\ st_tgen s = t /\ st_auto s = auto /\ st_forced s = [] /\
  st_ops s = [] /\ st_ids s = ids /\
  simple s (fun q => exists x, q = this ((lomax x + 1) * xmin)%Qc) /\
  (forall i, In i ids -> state_of s i = Some "default"%string) /\
  (auto = false -> forall i, In i ids -> remaining_of s i = Some (Some (-1)%Z)).

Lemma plain_story_does name l po r xmin lomax st t auto p start cstep k bins g w :
  w_pops w = l ++ po :: r -> p_size po = Z.of_nat (length (p_ids po)) -> NoDup (p_ids po) ->
  nth_error (w_tgens w) t = Some g -> cyclic_at p start cstep k bins g ->
  does (plain_story name (length l) (GPareto xmin false lomax st) t auto) w (~ In name (map st_name (w_stories w)))
    (fun a w' => exists s st' g', a = length (w_stories w) /\ cyclic_at p start cstep k bins g' /\
       plain name (length l) t auto (p_ids po) xmin lomax s /\
       (auto = true -> exists s0 g0, cyclic_at p start cstep k bins g0 /\ reset_timers s0 g0 None = Ok (s, g') /\ static s0 s /\ st_forced s0 = []) /\
       w' = set_stories (w_stories w ++ [s]) (set_tgens (set_nth t g' (w_tgens w))
              (set_gens (w_gens w ++ [GPareto xmin false lomax st'; GConst (vz 1)]) w))).
Proof.
  intros Hp Hsz Nd Ht Hg. unfold plain_story. eapply does_step; [apply alloc_gen_eq|]. eapply does_step; [apply alloc_gen_eq|].
  unfold create_story. eapply does_step; [reflexivity|]. cbn [w_stories set_gens].
  destruct (find_story name (w_stories w) 0) as [b|] eqn:Ef.
  { right. split; [|now eexists _, _]. intros N. apply (find_story_In name (w_stories w) 0) in N. congruence. }
  apply find_story_In in Ef.
  destruct (pareto_step xmin lomax st (length (p_ids po))) as (xs & st' & Hxs & Estep).
  set (n := length (p_ids po)) in *.
  set (acts := combine (map this (pareto_values xmin lomax xs)) (repeat (this (Q2Qc (inject_Z 1))) n)).
  assert (La : length acts = n).
  { unfold acts. rewrite combine_length, repeat_length, map_length. unfold pareto_values. rewrite map_length. lia. }
  set (sb := mkStory name (length l) "CELL_ID" t auto [] ["default"%string] (params_table (p_ids po) (one_state acts))
               (fresh_timer (p_ids po)) []).
  set (w1 := set_gens (w_gens w ++ [GPareto xmin false lomax st'; GConst (vz 1)]) w).
  match goal with |- does _ ?x _ _ => set (w0 := x) end.
  assert (Hcols : all_params (p_ids po) (p_size po) [("default"%string, (length (w_gens w), length (w_gens w ++ [GPareto xmin false lomax st])))]
    w0
    = (Ok (one_state acts), w1)).
  { unfold w0. cbn [all_params w_gens set_gens]. unfold state_params, bindM at 1 2. rewrite Hsz.
    cbn [fst snd]. change (set_gens _ (set_gens _ w)) with (set_gens ((w_gens w ++ [GPareto xmin false lomax st]) ++ [GConst (vz 1)]) w).
    rewrite <- app_assoc. cbn [app].
    rewrite (leaf_generate (set_gens (w_gens w ++ [GPareto xmin false lomax st; GConst (vz 1)]) w) (w_gens w) (GPareto xmin false lomax st) [GConst (vz 1)] _ _ _ eq_refl Estep).
    unfold bindM at 1.
    assert (Eb : generate (length (w_gens w ++ [GPareto xmin false lomax st])) (Z.of_nat n)
              (set_gens (w_gens w ++ [GPareto xmin false lomax st'; GConst (vz 1)]) (set_gens (w_gens w ++ [GPareto xmin false lomax st; GConst (vz 1)]) w)) =
            (Ok (repeat (vz 1) n), w1)).
    { replace (length (w_gens w ++ [GPareto xmin false lomax st])) with (length (w_gens w ++ [GPareto xmin false lomax st'])) by now rewrite !app_length.
      rewrite (leaf_generate _ (w_gens w ++ [GPareto xmin false lomax st']) (GConst (vz 1)) [] (Z.of_nat n) (repeat (vz 1) n) (GConst (vz 1)));
        [|cbn [w_gens set_gens]; now rewrite <- app_assoc|cbn [gen_step]; now rewrite Nat2Z.id].
      rewrite <- app_assoc. reflexivity. }
    rewrite Eb. fold n. rewrite !map_length, repeat_length. unfold pareto_values at 1. rewrite map_length, Hxs, Nat.eqb_refl. cbn [negb orb].
    unfold bindM, lift. rewrite mapr_nums.
    assert (Er : mapr as_Q (repeat (vz 1) n) = Ok (repeat (this (Q2Qc (inject_Z 1))) n)).
    { clear. induction n as [|n IH]; cbn [repeat mapr]; [reflexivity|]. cbn [as_Q vz bind]. now rewrite IH. }
    rewrite Er. reflexivity. }
  assert (Hsb : simple sb (fun q => exists x, q = this ((lomax x + 1) * xmin)%Qc)).
  { assert (Hids : st_ids sb = p_ids po) by (unfold sb, st_ids, dkeys, fresh_timer; cbn; rewrite map_map; apply map_id).
    split; [reflexivity|]. split; [now rewrite Hids|]. unfold declared. cbn [st_params sb]. rewrite params_one by exact La. split.
    - intros i Hi. rewrite Hids in Hi.
      destruct (dget_combine (p_ids po) (map (fun ab => [("default"%string, ab)]) acts) i) as (x & Ex & Hx); [now rewrite map_length|exact Hi|].
      match goal with |- context [match ?d with _ => _ end] => replace d with (Some x) by (symmetry; exact Ex) end.
      apply in_map_iff in Hx as (ab & <- & _). eexists. reflexivity.
    - intros i st0 q (sts & ab & Hi & Hs & ->). cbn [st_params sb] in Hi. rewrite params_one in Hi by exact La. apply in_combine_r in Hi.
      apply in_map_iff in Hi as (ab' & <- & Hab). destruct Hs as [[= _ <-]|[]]. unfold acts in Hab. destruct ab' as [a b]. apply in_combine_l in Hab. cbn.
      apply in_map_iff in Hab as (v & <- & Hv). unfold pareto_values in Hv. apply in_map_iff in Hv as (x & <- & _). now exists x. }
  assert (Hids : st_ids sb = p_ids po) by (unfold sb, st_ids, dkeys, fresh_timer; cbn; rewrite map_map; apply map_id).
  assert (Hrun : exists s g', new_story (fun l0 => l0) name (length l) "CELL_ID" (length (w_gens w), length (w_gens w ++ [GPareto xmin false lomax st])) None t auto
      w0
      = (Ok s, set_tgens (set_nth t g' (w_tgens w)) w1) /\ cyclic_at p start cstep k bins g' /\ static sb s /\ st_forced s = [] /\
      (forall i, state_of s i = state_of sb i) /\ (auto = false -> s = sb) /\
      (auto = true -> reset_timers sb g None = Ok (s, g'))).
  { unfold new_story. rewrite (bind_eq (deref w_pops (length l)) _ w0 po w0) by (unfold deref; change (w_pops w0) with (w_pops w); now rewrite Hp, nth_mid).
    rewrite (bind_eq (ret [("default"%string, (length (w_gens w), length (w_gens w ++ [GPareto xmin false lomax st])))]) _ w0 _ w0 eq_refl).
    rewrite (bind_eq _ _ _ _ _ Hcols). cbn [map fst].
    fold (fresh_timer (p_ids po)). fold sb. destruct auto.
    - destruct (reset_runs sb _ p start cstep k bins g None Hsb Hg I) as (s' & g' & Er & Hg').
      exists s', g'. rewrite (bind_eq (deref w_tgens t) _ w1 g w1) by (unfold deref; change (w_tgens w1) with (w_tgens w); now rewrite Ht).
      rewrite (bind_eq (lift (reset_timers sb g None)) _ w1 (s', g') w1) by (unfold lift; now rewrite Er). split; [reflexivity|]. split; [exact Hg'|].
      destruct (reset_spec _ _ _ _ _ Er) as (S1 & S2 & S3 & _). split; [exact S1|]. split; [exact S2|].
      split; [exact S3|]. split; [discriminate|]. intros _. exact Er.
    - exists sb, g. split; [|split; [exact Hg|]; split; [apply static_refl|]; split; [reflexivity|]; split; [reflexivity|]; split; [reflexivity|]; discriminate].
      unfold ret. f_equal.
      assert (Es : set_nth t g (w_tgens w) = w_tgens w) by (apply set_nth_same; exact Ht). rewrite Es. reflexivity. }
  destruct Hrun as (s & g' & Erun & Hg' & Hst & Hf & Hss & Hfalse & Htrue).
  left. split; [exact Ef|]. exists (length (w_stories w)), (set_stories (w_stories w ++ [s]) (set_tgens (set_nth t g' (w_tgens w)) w1)).
  split; [exact (eq_trans (bind_eq _ _ _ _ _ Erun) eq_refl)|]. exists s, st', g'. split; [reflexivity|]. split; [exact Hg'|]. split.
  - pose proof Hst as (S1&S2&S3&S4&S5&S6&S7&S8&S9). unfold plain. repeat (split; [assumption || congruence|]). split; [eapply simple_static; eauto|].
    split. { intros i Hi. rewrite Hss. unfold sb, state_of. cbn [st_timer]. now rewrite fresh_state. }
    intros -> i Hi. rewrite (Hfalse eq_refl). unfold sb, remaining_of. cbn [st_timer]. now rewrite fresh_state.
  - split; [|reflexivity]. intros ->. exists sb, g. split; [exact Hg|]. split; [auto|]. split; [exact Hst|reflexivity].
Qed.

(** ** The cyclic timer *)
Ltac worlds := unfold set_seeder, set_clock, set_attrs, set_rels, set_gens, set_dgens, set_tgens, set_pops, set_stories, set_pop_names, set_gen_names;
  cbn [w_prng w_seeder w_clock w_attrs w_rels w_gens w_dgens w_tgens w_pops w_stories w_pop_names w_gen_names].

Lemma new_cyclic_state p now cstep st st' y : new_cyclic p now cstep st = Ok y -> exists y', new_cyclic p now cstep st' = Ok y'.
Proof.
  unfold new_cyclic, new_cyclic_fuel. intros H. apply bind_ok in H as (d & Ed & H). rewrite Ed. cbn [bind].
  destruct (negb _); [discriminate|]. apply bind_ok in H as (a & Ea & H). rewrite Ea. cbn [bind]. eauto.
Qed.


Lemma alloc_cyclic_does p w : does (alloc_cyclic p) w (can_start p (w_clock w))
  (fun t w' => exists sd st y, t = length (w_tgens w) /\ new_cyclic p (c_date (w_clock w)) (c_step (w_clock w)) st = Ok y /\
     w' = set_clock (register_listener (w_clock w) (length (w_tgens w))) (set_tgens (w_tgens w ++ [TCyclic y]) (set_seeder sd w))).
Proof.
  unfold alloc_cyclic, next_of_seeder. destruct (next_seed (w_seeder w)) as [seed sd] eqn:Es.
  unfold does, bindM, get, modify, lift, ret. rewrite Es. worlds.
  destruct (new_cyclic p _ _ (random_state (w_prng w) seed)) as [y|e] eqn:En.
  - left. split; [unfold can_start; eauto|]. eexists _, _. split; [reflexivity|]. exists sd, (random_state (w_prng w) seed), y. auto.
  - right. split; [|now eexists _, _]. intros (st & y & Ey). destruct (new_cyclic_state _ _ _ _ (random_state (w_prng w) seed) _ Ey) as (y' & E'). congruence.
Qed.

(** ** The two populations *)
Lemma n_cells_pos : (0 < n_cells)%Z. Proof. reflexivity. Qed.
Lemma n_names_pos : (0 < n_names)%Z. Proof. reflexivity. Qed.
Definition cell_ids : list val := map VStr (build_ids n_cells 0 "CELL_" 10).
Definition city_ids (src : sources) : list val := firstn (Z.to_nat n_cells) (uniq (map (city_names src) (seq 0 (Z.to_nat n_names)))).
Lemma cell_ids_length : length cell_ids = Z.to_nat n_cells.
Proof. unfold cell_ids. now rewrite map_length, build_ids_length. Qed.
Lemma cell_ids_NoDup : NoDup cell_ids.
Proof. apply seq_ids_NoDup. Qed.
Lemma city_ids_NoDup src : NoDup (city_ids src).
Proof.
  unfold city_ids. generalize (uniq_NoDup (map (city_names src) (seq 0 (Z.to_nat n_names)))). generalize (uniq (map (city_names src) (seq 0 (Z.to_nat n_names)))).
  intros l H. rewrite <- (firstn_skipn (Z.to_nat n_cells) l) in H. now apply NoDup_app_l in H.
Qed.
Lemma city_ids_some src : city_ids src <> [].
Proof.
  unfold city_ids. assert (H : In (city_names src 0) (uniq (map (city_names src) (seq 0 (Z.to_nat n_names))))).
  { apply uniq_In, in_map, in_seq. pose proof n_names_pos. lia. }
  destruct (uniq _) as [|x l]; [destruct H|]. pose proof n_cells_pos. destruct (Z.to_nat n_cells) eqn:E; [lia|]. discriminate.
Qed.
Lemma city_ids_In src c : In c (city_ids src) -> exists k, c = city_names src k.
Proof.
  intros H. unfold city_ids in H. assert (K : forall n (l : list val), In c (firstn n l) -> In c l).
  { induction n as [|n IH]; intros [|x l] X; cbn in X; try easy. destruct X as [->|X]; [now left|right; auto]. }
  apply K in H. rewrite uniq_In in H. apply in_map_iff in H as (k & <- & _). eauto.
Qed.

Lemma oracle_step f k n : gen_step (GOracle f k) n = Ok (map f (seq k (Z.to_nat n)), GOracle f (k + Z.to_nat n)).
Proof. reflexivity. Qed.
Lemma other_step f st n : (0 <= n)%Z -> exists vs st', length vs = Z.to_nat n /\ Forall (fun v => exists x, v = VNum (f x)) vs /\
  gen_step (GNumpy (NpOther f) st None) n = Ok (vs, GNumpy (NpOther f) st' None).
Proof.
  intros H. unfold gen_step, np_generate. replace (n <? 0)%Z with false by (symmetry; apply Z.ltb_ge; lia).
  destruct (draws next_raw (Z.to_nat n) st) as [xs st'] eqn:E. exists (map (fun x => VNum (f x)) xs), st'. cbn [bind].
  split; [rewrite map_length; eapply draws_length; eauto|]. split; [|reflexivity].
  apply Forall_forall. intros v Hv. apply in_map_iff in Hv as (x & <- & _). eauto.
Qed.

