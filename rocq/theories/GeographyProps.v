(** Properties of the circus after add_uganda_geography. *)
From Verif Require Import Base BaseFacts Rng RngFacts Utils UtilsFacts Relationship RelationshipFacts SpecRelationship RelationshipProps
  Frame Gens GensProps Clock SpecClock ClockProps Attribute AttributeFacts World Story Ops OpsFacts Fs Circus SpecStory StoryFacts StoryExec
  StoryProps StoryDelay SpecOps OpsProps OpsColumns OpsMore StoryMore SpecWorld SpecPopulation PopProps PopMore SpecAct ActFacts GensKept WorldProps
  Geography SpecGeography GeographyRun GeographyBuild GeographyLog SpecWait StoryGap.
From Coq Require Import Permutation Lqa Qround.
Local Open Scope nat_scope.

Lemma nth_end {A} (l r : list A) k n : n = k + length l -> nth_error (l ++ r) n = nth_error r k.
Proof. intros ->. rewrite nth_error_app2 by lia. f_equal. lia. Qed.

(** an attribute holding one value per id *)
Lemma full_combine w p name a ids vs po law : nth_error (w_pops w) p = Some po -> p_ids po = ids -> dget name (p_attrs po) = Some a ->
  nth_error (w_attrs w) a = Some (combine ids vs) -> length vs = length ids -> NoDup ids -> Forall law vs -> full_attribute w p name law.
Proof.
  intros Hp Hids Ha Ht L Nd F. exists a. split; [exists po; auto|]. split; [|split].
  - exists (combine ids vs). split; [exact Ht|]. now rewrite map_fst_combine by lia.
  - intros i. unfold member, holds. split.
    + intros (po' & E & Hi). assert (po' = po) by congruence. subst po'. rewrite Hids in Hi.
      destruct (dget_combine ids vs i L Hi) as (v & Hv & _). exists v, (combine ids vs). split; [exact Ht|]. now apply dget_In.
    + intros (v & t & E & Hi). assert (t = combine ids vs) by congruence. subst t. apply in_combine_l in Hi. exists po. rewrite Hids. auto.
  - intros i v (t & E & Hi). assert (t = combine ids vs) by congruence. subst t. apply in_combine_r in Hi. now apply (proj1 (Forall_forall _ _) F).
Qed.

Lemma geography_built src w cells cities w' : add_uganda_geography src true w = (Ok (cells, cities), w') ->
  extends w w' /\
  (exists ids, length ids = 200 /\ members_are w' cells ids) /\
  (exists ids, members_are w' cities ids /\ 1 <= length ids <= 200 /\ forall c, In c ids -> exists k, c = city_names src k) /\
  full_attribute w' cells "latitude" (fun v => exists k, v = latitudes src k) /\
  full_attribute w' cells "longitude" (fun v => exists k, v = longitudes src k) /\
  full_attribute w' cells "HEALTH" (fun v => exists x, v = VNum (beta_1_999 src x)) /\
  full_attribute w' cities "population" (fun v => exists x, v = VNum ((lomax_1_4 src x + 1) * Q2Qc 10000)%Qc) /\
  (exists r rel, relationship_at w' cities "CELLS" r /\ nth_error (w_rels w') r = Some rel /\
     (forall c i, related rel c i -> member w' cities c /\ member w' cells i) /\
     (forall i, member w' cells i -> exists c, related rel c i /\ forall c', related rel c' i -> c' = c)) /\
  dget "cells"%string (w_pop_names w') = Some cells /\ dget "cities"%string (w_pop_names w') = Some cities.
Proof.
  intros H. destruct (does_ok _ _ _ _ _ _ (add_does src w) H) as [_ X]. clear H.
  destruct X as (healths & sizes & assigned & rel & s & sd & gens & st0 & y & bins & g & u & h & bk & bk' & sb & sr & Er & H1 & H2 & H3 & H4 & H5 & H6 & H7 & _ & _ & _ & _ & _ & _ & _ & _ & _ & _ & ->).
  injection Er as -> ->.
  set (w' := mkWorld _ _ _ _ _ _ _ _ _ _ _ _).
  assert (Pc : exists po, nth_error (w_pops w') (length (w_pops w)) = Some po /\ p_ids po = cell_ids /\
            p_attrs po = [("latitude"%string, length (w_attrs w)); ("longitude"%string, 1 + length (w_attrs w)); ("HEALTH"%string, 2 + length (w_attrs w))]).
  { eexists. split; [exact (eq_trans (nth_end (w_pops w) _ 0 _ eq_refl) eq_refl)|]. auto. }
  assert (Pt : exists po, nth_error (w_pops w') (S (length (w_pops w))) = Some po /\ p_ids po = city_ids src /\
            p_attrs po = [("population"%string, 3 + length (w_attrs w))] /\ p_rels po = [("CELLS"%string, length (w_rels w))]).
  { eexists. split; [exact (eq_trans (nth_end (w_pops w) _ 1 _ eq_refl) eq_refl)|]. auto. }
  destruct Pc as (pc & Pc & Ic & Ac). destruct Pt as (pt & Pt & It & At & Rt).
  assert (Mc : forall i, member w' (length (w_pops w)) i <-> In i cell_ids).
  { intros i. unfold member. split; [intros (po & E & Hi); assert (po = pc) by congruence; subst po; now rewrite <- Ic|].
    intros Hi. exists pc. rewrite Ic. auto. }
  assert (Mt : forall i, member w' (S (length (w_pops w))) i <-> In i (city_ids src)).
  { intros i. unfold member. split; [intros (po & E & Hi); assert (po = pt) by congruence; subst po; now rewrite <- It|].
    intros Hi. exists pt. rewrite It. auto. }
  assert (Lseq : forall f : nat -> val, length (map f (seq 0 (length cell_ids))) = length cell_ids) by (intros; now rewrite map_length, seq_length).
  split; [|split; [|split; [|split; [|split; [|split; [|split; [|split; [|split]]]]]]]].
  - unfold w', extends. cbn [w_attrs w_rels w_gens w_tgens w_pops w_stories w_dgens w_gen_names w_clock w_pop_names register_listener c_date c_step].
    do 6 (split; [eexists; reflexivity|]). do 4 (split; [reflexivity|]). intros n N1 N2. rewrite !dget_dset.
    destruct (keqb_spec n "cities"%string); [congruence|]. destruct (keqb_spec n "cells"%string); [congruence|]. reflexivity.
  - exists cell_ids. split; [rewrite cell_ids_length; reflexivity|]. split; [apply cell_ids_NoDup|exact Mc].
  - exists (city_ids src). split; [split; [apply city_ids_NoDup|exact Mt]|]. split; [|apply city_ids_In].
    split; [pose proof (city_ids_some src); destruct (city_ids src); [easy|cbn; lia]|].
    unfold city_ids. rewrite firstn_length. change (Z.to_nat n_cells) with 200. lia.
  - eapply (full_combine w'); [exact Pc|exact Ic|rewrite Ac; reflexivity|exact (eq_trans (nth_end (w_attrs w) _ 0 _ eq_refl) eq_refl)|apply Lseq|apply cell_ids_NoDup|].
    apply Forall_forall. intros v Hv. apply in_map_iff in Hv as (k & <- & _). eauto.
  - eapply (full_combine w'); [exact Pc|exact Ic|rewrite Ac; reflexivity|exact (eq_trans (nth_end (w_attrs w) _ 1 _ eq_refl) eq_refl)|apply Lseq|apply cell_ids_NoDup|].
    apply Forall_forall. intros v Hv. apply in_map_iff in Hv as (k & <- & _). eauto.
  - eapply (full_combine w'); [exact Pc|exact Ic|rewrite Ac; reflexivity|exact (eq_trans (nth_end (w_attrs w) _ 2 _ eq_refl) eq_refl)|exact H1|apply cell_ids_NoDup|exact H2].
  - eapply (full_combine w'); [exact Pt|exact It|rewrite At; reflexivity|exact (eq_trans (nth_end (w_attrs w) _ 3 _ eq_refl) eq_refl)|exact H3|apply city_ids_NoDup|exact H4].
  - exists (length (w_rels w)), rel. split; [exists pt; rewrite Rt; auto|]. split; [exact (eq_trans (nth_end (w_rels w) _ 0 _ eq_refl) eq_refl)|].
    pose proof (add_exact _ _ _ _ _ (reach_new (w_prng w) s) H7) as P. rewrite new_rel_stored in P. cbn [app] in P. cbn [weights_list] in P.
    split.
    + intros c i [q Hq]. apply (Permutation_in _ P), lines3_in in Hq as [Hq _]. rewrite Mt, Mc. split.
      * apply in_combine_l in Hq. apply in_map_iff in Hq as (a & <- & Ha). now apply (proj1 (Forall_forall _ _) H6).
      * apply in_combine_r in Hq. now rewrite <- H5.
    + intros i Hi. rewrite Mc in Hi. apply (one_owner rel cell_ids); [|apply cell_ids_NoDup|exact Hi].
      rewrite (Permutation_map _ P). rewrite lines3_tos; [|now rewrite !map_length|reflexivity]. now rewrite H5.
  - unfold w'. cbn [w_pop_names]. rewrite !dget_dset. reflexivity.
  - unfold w'. cbn [w_pop_names]. rewrite !dget_dset. reflexivity.
Qed.

Lemma geography_runs src w : (exists r w', add_uganda_geography src true w = (Ok r, w')) <-> geography_free w.
Proof.
  split; [intros (r & w' & H); exact (proj1 (does_ok _ _ _ _ _ _ (add_does src w) H))|].
  intros H. destruct (does_runs _ _ _ _ (add_does src w) H) as (r & w' & E & _). eauto.
Qed.

(** the default value of force_build *)
Lemma geography_default src w : add_uganda_geography src false w = (Err TypeError, w).
Proof. reflexivity. Qed.

(** ** The geography is made of calls of the library *)
Definition builds {A} (m : M A) : Prop := forall g w, built g w -> built g (snd (m w)).
Lemma builds_bind {A B} (m : M A) (f : A -> M B) : builds m -> (forall x, builds (f x)) -> builds (bindM m f).
Proof.
  intros Hm Hf g w H. unfold bindM. specialize (Hm g w H). destruct (m w) as [[x|e] w1]; [|exact Hm]. now apply Hf.
Qed.
Lemma builds_same {A} (m : M A) : (forall w, snd (m w) = w) -> builds m.
Proof. intros H g w Hb. now rewrite H. Qed.
Lemma builds_call {A} (m : M A) c : proper c -> (forall w, snd (m w) = after_call c w) -> builds m.
Proof. intros Hp H g w Hb. rewrite H. now constructor. Qed.
Lemma builds_get {A} (f : world -> A) : builds (get f). Proof. apply builds_same. reflexivity. Qed.
Lemma builds_ret {A} (x : A) : builds (ret x). Proof. apply builds_same. reflexivity. Qed.
Lemma builds_lift {A} (r : result A) : builds (lift r). Proof. apply builds_same. destruct r; reflexivity. Qed.
Lemma builds_deref {A} (f : world -> list A) i : builds (deref f i).
Proof. apply builds_same. intros w. unfold deref. now destruct (nth_error (f w) i). Qed.
Lemma builds_alloc x : builds (alloc_gen x).
Proof. apply (builds_call _ (CNewGen x) I). reflexivity. Qed.
Lemma builds_seed : builds next_of_seeder.
Proof. apply (builds_call _ CNextSeed I). reflexivity. Qed.
Lemma builds_get_attribute p n : builds (get_attribute p n).
Proof. apply builds_bind; [apply builds_deref|intros; apply builds_lift]. Qed.
Lemma builds_cyclic p : builds (alloc_cyclic p).
Proof.
  intros g w H. unfold alloc_cyclic. apply builds_bind; [apply builds_seed| |exact H]. intros seed. clear g w H.
  apply builds_bind; [apply builds_get|intros pg]. apply builds_bind; [apply builds_get|intros c].
  apply builds_bind; [apply builds_lift|intros y]. apply (builds_call _ (CNewTimer (TCyclic y) true) I). reflexivity.
Qed.

Ltac builds :=
  match goal with
  | |- builds (bindM _ _) => apply builds_bind; [|intros]
  | |- builds (get _) => apply builds_get
  | |- builds (ret _) => apply builds_ret
  | |- builds (lift _) => apply builds_lift
  | |- builds (deref _ _) => apply builds_deref
  | |- builds (alloc_gen _) => apply builds_alloc
  | |- builds (alloc_cyclic _) => apply builds_cyclic
  | |- builds next_of_seeder => apply builds_seed
  | |- builds (get_attribute _ _) => apply builds_get_attribute
  | |- builds (generate ?g ?n) => apply (builds_call _ (CGenerate g n) I); reflexivity
  | |- builds (create_population ?a ?b ?c ?d) => apply (builds_call _ (CPopulation a b c d) I); reflexivity
  | |- builds (create_attribute ?a ?b ?c ?d ?e) => apply (builds_call _ (CAttribute a b c d e) I); reflexivity
  | |- builds (create_relationship ?a ?b ?c) => apply (builds_call _ (CRelationship a b c) I); reflexivity
  | |- builds (rel_add ?a ?b ?c) => apply (builds_call _ (CRelAdd a b c) I); reflexivity
  | |- builds (set_operations ?a ?b) => apply (builds_call _ (CSetOperations a b) I); reflexivity
  | |- builds (match next_seed ?r with _ => _ end) => destruct (next_seed r)
  | |- builds (match ?x with _ => _ end) => destruct x
  end.
Lemma builds_plain name p ag t auto : builds (plain_story name p ag t auto).
Proof.
  unfold plain_story. builds; [builds|]. builds; [builds|].
  match goal with |- builds (create_story ?o ?a ?b ?c ?d ?e ?f ?g) => apply (builds_call _ (CStory o a b c d e f g)) end; [|reflexivity].
  intros l. apply Permutation_refl.
Qed.
Lemma builds_populations src fb : builds (uganda_populations src fb).
Proof.
  unfold uganda_populations. destruct fb; [|apply builds_same; reflexivity].
  unfold build_uganda_populations. repeat builds.
Qed.
Lemma builds_geography src fb : builds (add_uganda_geography src fb).
Proof.
  unfold add_uganda_geography. repeat first [apply builds_populations|apply builds_plain|builds].
Qed.

(** ** The two stories *)
Lemma geography_stories src w cells cities w' : add_uganda_geography src true w = (Ok (cells, cities), w') ->
  exists hh t bins g u h bk bk' b r sb sr,
    b = length (w_stories w) /\ r = S b /\
    attribute_at w' cells "HEALTH" hh /\ (forall a, attribute_at w' cells "HEALTH" a -> a = hh) /\
    (forall a, story_named w' "cell_break_down" a <-> a = b) /\ (forall a, story_named w' "cell_repair_down" a <-> a = r) /\
    nth_error (w_stories w') b = Some sb /\ st_ops sb = break_down_ops src u hh r ++ [OpBack b bk] /\
    nth_error (w_stories w') r = Some sr /\ st_ops sr = repair_ops src h hh ++ [OpBack r bk'] /\
    plain "cell_break_down" cells t true cell_ids (Q2Qc 5) (lomax_1_4 src) (with_ops sb []) /\
    (positive_laws src -> forall i, In i cell_ids -> exists n, n < bins /\ remaining_of sb i = Some (Some (Z.of_nat n))) /\
    plain "cell_repair_down" cells t false cell_ids (Q2Qc 100) (lomax_1_2 src) (with_ops sr []) /\
    health_law src w' u /\ health_law src w' h /\
    nth_error (w_tgens w') t = Some g /\ cyclic_at uganda_profile (c_date (w_clock w)) (c_step (w_clock w)) 0 bins g /\
    (forall a s, nth_error (w_stories w') a = Some s -> a <> b -> a <> r -> nth_error (w_stories w) a = Some s).
Proof.
  intros H. destruct (does_ok _ _ _ _ _ _ (add_does src w) H) as [Hfree X]. clear H.
  destruct X as (healths & sizes & assigned & rel & s & sd & gens & st0 & y & bins & g & u & h & bk & bk' & sb & sr & Er & H1 & H2 & H3 & H4 & H5 & H6 & H7 & _ & _ & Hg & Psb & Hc & Psr & Hu & Hh & _ & _ & ->).
  injection Er as -> ->.
  set (w' := mkWorld _ _ _ _ _ _ _ _ _ _ _ _) in *.
  assert (Pc : exists po, nth_error (w_pops w') (length (w_pops w)) = Some po /\ dget "HEALTH"%string (p_attrs po) = Some (2 + length (w_attrs w))).
  { eexists. split; [exact (eq_trans (nth_end (w_pops w) _ 0 _ eq_refl) eq_refl)|]. reflexivity. }
  destruct Pc as (pc & Pc & Ac).
  assert (Nb : forall a s, nth_error (w_stories w') a = Some s -> a < length (w_stories w) -> nth_error (w_stories w) a = Some s).
  { intros a s0 E L. unfold w' in E. cbn [w_stories] in E. now rewrite nth_error_app1 in E. }
  assert (E1 : nth_error (w_stories w') (length (w_stories w)) = Some (with_ops sb (break_down_ops src u (2 + length (w_attrs w)) (S (length (w_stories w))) ++ [OpBack (length (w_stories w)) bk]))).
  { exact (eq_trans (nth_end (w_stories w) _ 0 _ eq_refl) eq_refl). }
  assert (E2 : nth_error (w_stories w') (S (length (w_stories w))) = Some (with_ops sr (repair_ops src h (2 + length (w_attrs w)) ++ [OpBack (S (length (w_stories w))) bk']))).
  { exact (eq_trans (nth_end (w_stories w) _ 1 _ eq_refl) eq_refl). }
  assert (Hall : forall a s, nth_error (w_stories w') a = Some s -> a < length (w_stories w) \/ a = length (w_stories w) \/ a = S (length (w_stories w))).
  { intros a s0 E. assert (L : a < length (w_stories w')) by (apply nth_error_Some; congruence).
    unfold w' in L. cbn [w_stories] in L. rewrite app_length in L. cbn [length] in L. lia. }
  assert (Hn : forall a s, nth_error (w_stories w) a = Some s -> st_name s <> "cell_break_down"%string /\ st_name s <> "cell_repair_down"%string).
  { intros a s0 E. destruct Hfree as (_ & _ & _ & N1 & N2). apply nth_error_In in E. apply (in_map st_name) in E. split; intros X; rewrite X in E; auto. }
  pose proof Psb as (Nsb & _). pose proof Psr as (Nsr & _).
  exists (2 + length (w_attrs w)), (length (w_tgens w)), bins, g, u, h, bk, bk', (length (w_stories w)), (S (length (w_stories w))).
  eexists _, _. split; [reflexivity|]. split; [reflexivity|]. split; [exists pc; auto|]. split.
  { intros a (po & E & Ha). assert (po = pc) by congruence. subst po. congruence. }
  split.
  { intros a. split; [|intros ->; eexists; split; [exact E1|exact Nsb]]. intros (s0 & E & N). destruct (Hall a s0 E) as [L|[->| ->]]; [|reflexivity|].
    - destruct (Hn a s0 (Nb a s0 E L)). congruence.
    - exfalso. assert (X : st_name s0 = st_name sr) by (rewrite E2 in E; now injection E as <-). rewrite X, Nsr in N. discriminate. }
  split.
  { intros a. split; [|intros ->; eexists; split; [exact E2|exact Nsr]]. intros (s0 & E & N). destruct (Hall a s0 E) as [L|[->| ->]]; [| |reflexivity].
    - destruct (Hn a s0 (Nb a s0 E L)). congruence.
    - exfalso. assert (X : st_name s0 = st_name sb) by (rewrite E1 in E; now injection E as <-). rewrite X, Nsb in N. discriminate. }
  split; [exact E1|]. split; [reflexivity|]. split; [exact E2|]. split; [reflexivity|].
  assert (K : forall s0 o, st_ops s0 = [] -> with_ops (with_ops s0 o) [] = s0) by (intros [] o E; cbn in *; now rewrite <- E).
  split; [rewrite K; [exact Psb|apply Psb]|]. split; [exact Hc|]. split; [rewrite K; [exact Psr|apply Psr]|].
  split; [exact Hu|]. split; [exact Hh|]. split; [exact (eq_trans (nth_end (w_tgens w) _ 0 _ eq_refl) eq_refl)|]. split; [exact Hg|].
  intros a s0 E N1 N2. destruct (Hall a s0 E) as [L|[L|L]]; [auto|contradiction..].
Qed.

Lemma after_later l : forall w0 w, later w0 w -> later w0 (after w l).
Proof. induction l as [|h l IH]; intros w0 w H; [exact H|]. cbn [after]. apply IH. apply (later_call _ (CHappening h)), H. Qed.

Lemma health_law_later src w l u : health_law src w u -> health_law src (after w l) u.
Proof.
  intros (st & E). pose proof (later_gens w (after w l) (after_later l w w (later_now w))) as K.
  destruct (K u _ E) as (g & Eg & Hs). destruct g; cbn in Hs; try contradiction. destruct Hs as [<- Hb].
  rewrite (proj1 Hb eq_refl) in Eg. eexists. exact Eg.
Qed.

(** ** What an execution of one of them logs and stores *)
Definition status_story (src : sources) (hh b : nat) (s : story) (u : nat) : Prop :=
  st_field s = "CELL_ID"%string /\ NoDup (st_ids s) /\
  exists extra bk, st_ops s = [OpGenerate u "NEW_HEALTH_LEVEL" None; OpAttrUpdate hh "CELL_ID" "NEW_HEALTH_LEVEL"] ++ extra ++
    [OpTimestamp "TIME" true (time_format src); field_logger "cell_status" (Some status_cols) []; OpBack b bk] /\
    (extra = [] \/ exists c, extra = [OpReset c (Some "CELL_ID"%string)]).

Lemma status_rows_In fmt due : forall vs dates i cs, length vs = length due -> length dates = length due ->
  (In (i, cs) (status_rows fmt due vs dates) <-> exists k v t, nth_error due k = Some i /\ nth_error vs k = Some v /\ nth_error dates k = Some t /\ cs = [fmt t; i; v]).
Proof.
  induction due as [|j due IH]; intros [|v vs] [|t ts] i cs L1 L2; try discriminate.
  - cbn. split; [intros []|]. intros (k & v & t & E & _). destruct k; discriminate.
  - unfold status_rows in *. cbn [combine map fst snd]. split.
    + intros [[= <- <-]|H]; [exists 0, v, t; auto|]. apply IH in H; [|cbn in *; lia..]. destruct H as (k & v' & t' & H). exists (S k), v', t'. exact H.
    + intros (k & v' & t' & H1 & H2 & H3 & ->). destruct k; cbn in H1, H2, H3.
      * injection H1 as ->. injection H2 as ->. injection H3 as ->. now left.
      * right. apply IH; [cbn in *; lia..|]. eauto 8.
Qed.
Lemma status_rows_fst fmt due : forall vs dates, length vs = length due -> length dates = length due -> map fst (status_rows fmt due vs dates) = due.
Proof.
  induction due as [|j due IH]; intros [|v vs] [|t ts] L1 L2; try discriminate; [reflexivity|].
  unfold status_rows in *. cbn [combine map fst snd]. f_equal. apply IH; cbn in *; lia.
Qed.

Lemma status_execution src w b s u hh logs w3 : nth_error (w_stories w) b = Some s -> status_story src hh b s u -> health_law src w u ->
  execute b w = (Ok logs, w3) ->
  exists rows, logs = match rows with [] => [] | _ => [("cell_status"%string, mkDf status_cols rows)] end /\
    NoDup (map fst rows) /\ (forall i, In i (map fst rows) <-> acts_now w b i) /\ Forall (status_line src w) rows /\
    forall k v, holds w3 hh k v <-> (exists t, In (k, [t; k; v]) rows) \/ ~ acts_now w b k /\ holds w hh k v.
Proof.
  intros Hs (Hf & Nd & extra & bk & Hops & Hex) Hlaw H. apply execute_ok in H as (s0 & Hs0 & H). assert (s0 = s) by congruence. subst s0.
  assert (Ha : forall i, acts_now w b i <-> In i (due_members s)).
  { intros i. unfold acts_now. split; [intros (s0 & E & Hi); congruence|eauto]. }
  destruct H as [(Ed & -> & Ht)|(Ed & d' & w1 & w2 & Hc & Hm & Ht)].
  - apply story_tick_ok in Ht as (s1 & s2 & _ & _ & ->). exists []. split; [reflexivity|]. split; [constructor|]. rewrite Ed in Ha.
    split; [intros i; rewrite Ha; reflexivity|]. split; [constructor|]. intros k v. rewrite Ha. cbn [In].
    change (holds (set_stories _ _) hh k v) with (holds w hh k v). split; [intros X; right; auto|]. intros [(t & [])|[_ X]]; exact X.
  - rewrite Hf, Hops in Hc.
    destruct (status_chain src u hh extra b bk (due_members s) _ _ _ _ Hc Hex Hlaw Ed (NoDup_due _ Nd)) as (vs & dates & L1 & F1 & L2 & F2 & -> & _ & Hh).
    exists (status_rows (time_format src) (due_members s) vs dates). split.
    { destruct (due_members s), vs, dates; try discriminate; try easy. }
    split; [rewrite status_rows_fst by assumption; apply (NoDup_due _ Nd)|]. split; [intros i; rewrite status_rows_fst by assumption; symmetry; apply Ha|].
    split.
    { apply Forall_forall. intros [i cs] Hi. apply status_rows_In in Hi; [|assumption..]. destruct Hi as (k & v & t & E1 & E2 & E3 & ->).
      apply nth_error_In in E2, E3. rewrite Forall_forall in F1, F2. destruct (F1 _ E2) as (x & ->). exists t, x. split; [reflexivity|]. apply (F2 _ E3). }
    intros k v. assert (Hw3 : holds w3 hh k v <-> holds w1 hh k v).
    { unfold holds. apply story_tick_ok in Ht as (sx & sy & _ & _ & ->). cbn [w_attrs set_stories].
      destruct (st_auto s); [apply story_reset_ok in Hm as (sx' & sy' & gx & gy & _ & _ & _ & ->)|apply story_tick_ok in Hm as (sx' & sy' & _ & _ & ->)]; reflexivity. }
    rewrite Hw3, Hh, Ha. change (holds (unforced b s w) hh k v) with (holds w hh k v).
    assert (X : In (k, v) (combine (due_members s) vs) <-> exists t, In (k, [t; k; v]) (status_rows (time_format src) (due_members s) vs dates)).
    { split.
      - intros Hi. apply In_nth_error in Hi as (n & Hn).
        assert (En : nth_error (due_members s) n = Some k /\ nth_error vs n = Some v).
        { revert Hn. clear. revert n vs. induction (due_members s) as [|x l IH]; intros [|n] [|v0 vs] E; cbn in E; try discriminate.
          - injection E as -> ->. auto.
          - apply IH in E. exact E. }
        destruct (nth_error dates n) as [t|] eqn:Et.
        + exists (time_format src t). apply status_rows_In; [assumption..|]. exists n, v, t. tauto.
        + apply nth_error_None in Et. assert (n < length vs) by (apply nth_error_Some; destruct En; congruence). lia.
      - intros (t & Hi). apply status_rows_In in Hi; [|assumption..]. destruct Hi as (n & v' & t' & E1 & E2 & E3 & E4). injection E4 as -> ->.
        apply nth_error_In with (n := n). revert E1 E2. clear. revert n vs. induction (due_members s) as [|x l IH]; intros [|n] [|v0 vs] E1 E2; cbn in *; try discriminate.
        + congruence.
        + auto. }
    rewrite X. reflexivity.
Qed.
