(** Lemmas on populations: created attributes and stocks, selection of members, data
    frames. *)
From Verif Require Import Base BaseFacts Rng RngFacts Utils UtilsFacts UtilsProps Relationship SpecRelationship RelationshipFacts RelationshipSelect RelationshipMany RelationshipProps
  Frame Gens GensProps Clock Attribute SpecAttribute AttributeFacts World Story Ops OpsFacts Fs Circus SpecStory StoryFacts StoryExec
  SpecOps OpsProps OpsColumns StoryStates StoryNew SpecWorld WorldProps SpecPopulation PopFacts StoryWorld2 StoryBack OpsMore PopProps GensKept.
From Coq Require Import Permutation.

Lemma generate_ok g n w vs w' : generate g n w = (Ok vs, w') ->
  exists gens, gen_generate (w_gens w) g n = Ok (vs, gens) /\ w' = set_gens gens w.
Proof.
  unfold generate. intros H. mstep H. injection E as <- <-. mstep H. apply lift_ok in E as [E ->].
  destruct x as [v gens]. mstep H. injection E0 as _ <-. injection H as <- <-. eauto.
Qed.
Lemma seeder_ok w s w' : next_of_seeder w = (Ok s, w') -> exists sd, w' = set_seeder sd w.
Proof.
  unfold next_of_seeder. intros H. mstep H. injection E as <- <-. destruct (next_raw (w_seeder w)) as [x' sd'] eqn:X.
  mstep H. injection E as _ <-. injection H as _ <-. eauto.
Qed.
Lemma deref_ok {A} (heap : world -> list A) i w x w' : deref heap i w = (Ok x, w') ->
  nth_error (heap w) i = Some x /\ w' = w.
Proof. unfold deref. destruct (nth_error (heap w) i); [|discriminate]. intros [= <- <-]. auto. Qed.

(** ** Stocks *)
Lemma lines3_in f t q froms tos n : In (f, t, q) (lines3 froms tos (repeat 1%Q n)) -> In (f, t) (combine froms tos) /\ q = 1%Q.
Proof.
  revert tos n. induction froms as [|f0 froms IH]; intros [|t0 tos] [|n]; cbn; try easy.
  intros [[= -> -> <-]|H]; [auto|]. apply IH in H. tauto.
Qed.
Lemma lines3_tos froms tos n : length froms = length tos -> length froms = n ->
  map (fun x => snd (fst x)) (lines3 froms tos (repeat 1%Q n)) = tos.
Proof.
  revert tos n. induction froms as [|f0 froms IH]; intros [|t0 tos] [|n]; cbn; try easy.
  intros [= H] [= H']. f_equal. now apply IH.
Qed.
Lemma new_rel_stored g s : stored (new_relationship g s) = [].
Proof. reflexivity. Qed.

Lemma set_nth_last {A} (l : list A) x y : set_nth (length l) y (l ++ [x]) = l ++ [y].
Proof. induction l as [|z l IH]; cbn; [reflexivity|]. now rewrite IH. Qed.
Lemma new_rel_add rels new froms tos w w' : w_rels w = rels ++ [new] -> rel_add (length rels) froms tos w = (Ok tt, w') ->
  exists rel, add_relations new froms tos (WScalar 1) = Ok rel /\ w' = set_rels (rels ++ [rel]) w.
Proof.
  intros Hw H. unfold rel_add in H. mstep H. apply deref_ok in E as [E ->]. rewrite Hw in E.
  rewrite nth_error_app2, Nat.sub_diag in E by lia. injection E as <-. mstep H. apply lift_ok in E as [E ->].
  unfold put_rel, modify in H. rewrite Hw, set_nth_last in H. injection H as <-. eauto.
Qed.
Lemma new_rel_add_grouped rels new froms tos w w' : w_rels w = rels ++ [new] -> rel_add_grouped (length rels) froms tos w = (Ok tt, w') ->
  exists rel, add_grouped_relations new froms tos = Ok rel /\ w' = set_rels (rels ++ [rel]) w.
Proof.
  intros Hw H. unfold rel_add_grouped in H. mstep H. apply deref_ok in E as [E ->]. rewrite Hw in E.
  rewrite nth_error_app2, Nat.sub_diag in E by lia. injection E as <-. mstep H. apply lift_ok in E as [E ->].
  unfold put_rel, modify in H. rewrite Hw, set_nth_last in H. injection H as <-. eauto.
Qed.

Lemma stock_created p name gi n w w' po : nth_error (w_pops w) p = Some po ->
  create_stock_relationship p name gi n w = (Ok tt, w') ->
  exists rel items, relationship_at w' p name (length (w_rels w)) /\
    w_rels w' = w_rels w ++ [rel] /\
    gen_generate (w_gens w) gi (n * p_size po) = Ok (items, w_gens w') /\
    Permutation (map (fun x => snd (fst x)) (stored rel)) items /\
    (forall f t, related rel f t -> In f (p_ids po)) /\
    (forall f t q, In (f, t, q) (stored rel) -> q = 1%Q).
Proof.
  intros Hp H. unfold create_stock_relationship in H. mstep H.
  destruct (create_rel_world p name None w po Hp) as (s & sd & X). rewrite X in E. injection E as <- <-. clear X.
  mstep H. apply deref_ok in E as [E ->]. cbn [w_pops set_pops] in E.
  rewrite nth_error_set_nth in E. rewrite Nat.eqb_refl in E.
  rewrite Hp in E. injection E as <-. cbn [p_size p_ids] in H.
  mstep H. apply generate_ok in E as (gens & Eg & ->). cbn [w_gens set_pops set_rels set_seeder] in Eg.
  mstep H. apply seeder_ok in E as (sd2 & ->). mstep H. injection E as <- <-. mstep H. apply lift_ok in E as [E ->].
  destruct x1 as [assigned st]. apply make_random_assign_spec in E as [Ef Es].
  apply (new_rel_add (w_rels w) (new_relationship (w_prng w) s)) in H; [|reflexivity]. destruct H as (rel & E & ->).
  exists rel, x. cbn [w_rels w_gens set_rels set_seeder set_gens set_pops].
  apply add_exact in E; [|constructor]. rewrite new_rel_stored in E. cbn [app weights_list] in E.
  split; [|split; [|split; [|split; [|split]]]].
  - eexists. cbn [w_pops set_rels set_seeder set_gens set_pops]. rewrite nth_error_set_nth, Nat.eqb_refl, Hp. split; [reflexivity|]. cbn [p_rels].
    rewrite dget_dset. now destruct (keqb_spec name name).
  - reflexivity.
  - exact Eg.
  - rewrite (Permutation_map _ E). rewrite lines3_tos; [|now rewrite !map_length|reflexivity]. now rewrite Ef.
  - intros f t [q Hq]. apply (Permutation_in _ E), lines3_in in Hq as [Hq _]. apply in_combine_l in Hq.
    apply in_map_iff in Hq as (y & <- & Hy). rewrite Forall_forall in Es. now apply Es.
  - intros f t q Hq. apply (Permutation_in _ E), lines3_in in Hq. tauto.
Qed.

Lemma bulk_stock_created p name gi w w' po : nth_error (w_pops w) p = Some po ->
  create_stock_relationship_grp p name gi w = (Ok tt, w') ->
  exists rel bulks, relationship_at w' p name (length (w_rels w)) /\ w_rels w' = w_rels w ++ [rel] /\ gen_generate (w_gens w) gi (p_size po) = Ok (map VList bulks, w_gens w') /\ Permutation (stored rel) (flat_map (fun '(f, ts) => map (fun t => (f, t, 1%Q)) ts) (combine (p_ids po) bulks)).
Proof.
  intros Hp H. unfold create_stock_relationship_grp in H. mstep H.
  destruct (create_rel_world p name None w po Hp) as (s & sd & X). rewrite X in E. injection E as <- <-. clear X.
  mstep H. apply deref_ok in E as [E ->]. cbn [w_pops set_pops] in E.
  rewrite nth_error_set_nth in E. rewrite Nat.eqb_refl in E.
  rewrite Hp in E. injection E as <-. cbn [p_size p_ids] in H.
  mstep H. apply generate_ok in E as (gens & Eg & ->). cbn [w_gens set_pops set_rels set_seeder] in Eg.
  mstep H. apply lift_ok in E as [E ->].
  apply (new_rel_add_grouped (w_rels w) (new_relationship (w_prng w) s)) in H; [|reflexivity]. destruct H as (rel & Er & ->).
  exists rel, x0. cbn [w_rels w_gens set_rels set_seeder set_gens set_pops].
  apply add_grouped_exact in Er; [|constructor]. rewrite new_rel_stored in Er.
  split; [|split; [|split]].
  - eexists. cbn [w_pops set_rels set_seeder set_gens set_pops]. rewrite nth_error_set_nth, Nat.eqb_refl, Hp. split; [reflexivity|]. cbn [p_rels].
    rewrite dget_dset. now destruct (keqb_spec name name).
  - reflexivity.
  - replace (map VList x0) with x; [exact Eg|]. apply mapr_ok_Forall2 in E. clear -E.
    induction E as [|v l vs ls Hv _ IH]; cbn; [reflexivity|]. destruct v; try discriminate. injection Hv as <-. now rewrite IH.
  - exact Er.
Qed.

(** In a stock of distinct items each item has one owner. *)
Lemma one_owner rel items t : Permutation (map (fun x => snd (fst x)) (stored rel)) items -> NoDup items -> In t items ->
  exists f, related rel f t /\ forall f', related rel f' t -> f' = f.
Proof.
  intros P N H. apply (Permutation_in _ (Permutation_sym P)) in H. apply in_map_iff in H as ([[f t0] q] & <- & H). cbn.
  exists f. split; [now exists q|]. intros f' [q' H'].
  apply (Permutation_NoDup (Permutation_sym P)) in N.
  assert (K : forall a b, In a (stored rel) -> In b (stored rel) -> snd (fst a) = snd (fst b) -> a = b).
  { clear -N. induction (stored rel) as [|c l IH]; cbn; [easy|]. inversion N as [|? ? N1 N2]; subst.
    intros a b [->|Ha] [->|Hb] E; auto; exfalso; apply N1.
    - rewrite E. now apply (in_map (fun x => snd (fst x))).
    - rewrite <- E. now apply (in_map (fun x => snd (fst x))). }
  now injection (K _ _ H' H eq_refl).
Qed.

(** ** New attributes *)
Lemma select_all_froms r rows r' : reachable r -> select_one r None false false false None = Ok (rows, r') ->
  NoDup (map (fun '(_, f, _) => f) rows) /\
  (forall i f t, In (i, f, t) rows -> related r f t \/ (isolated r f /\ t = VNA)) /\
  (forall f t, related r f t -> exists i t', In (i, f, t') rows).
Proof.
  intros Hr H. apply reachable_wf in Hr as Hw.
  destruct (select_one_spec _ _ _ _ _ _ _ _ Hw H) as (picks & out & HF & Hoff & _ & -> & _ & _).
  rewrite (Hoff eq_refl). clear Hoff H.
  assert (Ha : answered r false None = combine (map vnat (seq 0 (length (grouped r)))) (dkeys (grouped r))).
  { unfold answered, requests. cbn [negb orb]. induction (combine _ _) as [|a l IH]; cbn; [reflexivity|]. now f_equal. }
  rewrite Ha in HF.
  assert (Hs : map (fun '(_, f, _) => f) (map public_row picks) = dkeys (grouped r)).
  { transitivity (map snd (combine (map vnat (seq 0 (length (grouped r)))) (dkeys (grouped r)))).
    - clear -HF. induction HF as [|rq s l l' (_ & E & _) _ IH]; cbn; [reflexivity|]. now rewrite IH, E.
    - apply map_snd_combine. unfold dkeys. now rewrite !map_length, seq_length. }
  split; [rewrite Hs; apply Hw|]. split.
  - intros i f t Hin. apply in_map_iff in Hin as (s & [= <- <- <-] & Hin).
    assert (X : exists rq, row_ok (grouped r) None rq s).
    { clear -HF Hin. induction HF as [|rq s0 l l' H0 _ IH]; [easy|]. destruct Hin as [->|Hin]; eauto. }
    destruct X as [rq X]. destruct (row_ok_spec _ _ _ _ Hw X) as (_ & _ & Y). exact Y.
  - intros f t [q Hq]. assert (K : In f (dkeys (grouped r))).
    { unfold stored in Hq. apply in_flat_map in Hq as (kv & Hkv & Hq). apply in_map_iff in Hq as (tw & [= <- _ _] & _).
      now apply (in_map fst). }
    rewrite <- Hs in K. apply in_map_iff in K as ([[i f'] t'] & <- & K). eauto.
Qed.

Lemma created_attr p name iv ig ir w a w' po : nth_error (w_pops w) p = Some po ->
  create_attribute p name iv ig ir w = (Ok a, w') ->
  exists t w1, attr_table p iv ig ir w = (Ok t, w1) /\ a = length (w_attrs w1) /\
    (exists po1, nth_error (w_pops w1) p = Some po1 /\
      w' = set_pops (set_nth p (mkPop (p_ids po1) (p_size po1) (dset name a (p_attrs po1)) (p_rels po1)) (w_pops w1))
        (set_attrs (w_attrs w1 ++ [t]) w1)).
Proof.
  intros Hp H. unfold create_attribute in H. mstep H. mstep H. apply deref_ok in E0 as [E0 ->]. mstep H. injection E1 as <- <-.
  mstep H. injection E1 as _ <-. mstep H. injection E1 as _ <-. injection H as <- <-. exists x, w0.
  split; [exact E|]. split; [reflexivity|]. exists x0. split; [exact E0|]. reflexivity.
Qed.
Lemma created_at p name w1 po1 a t : nth_error (w_pops w1) p = Some po1 -> a = length (w_attrs w1) ->
  let w' := set_pops (set_nth p (mkPop (p_ids po1) (p_size po1) (dset name a (p_attrs po1)) (p_rels po1)) (w_pops w1))
        (set_attrs (w_attrs w1 ++ [t]) w1) in
  attribute_at w' p name a /\ (forall k v, holds w' a k v <-> In (k, v) t) /\ (single_valued w' a <-> NoDup (map fst t)) /\
  (forall b u, nth_error (w_attrs w1) b = Some u -> nth_error (w_attrs w') b = Some u).
Proof.
  intros Hp -> w'. assert (X : nth_error (w_attrs w') (length (w_attrs w1)) = Some t).
  { cbn. now rewrite nth_error_app2, Nat.sub_diag by lia. }
  split; [|split; [|split]].
  - eexists. cbn [w' w_pops set_pops]. rewrite nth_error_set_nth, Nat.eqb_refl, Hp. split; [reflexivity|]. cbn [p_attrs].
    rewrite dget_dset. now destruct (keqb_spec name name).
  - intros k v. split.
    + intros (u & Hu & Hin). congruence.
    + intros Hin. exists t. auto.
  - split.
    + intros (u & Hu & Hin). congruence.
    + intros Hin. exists t. auto.
  - intros b u Hb. cbn. rewrite nth_error_app1; [exact Hb|]. now apply nth_error_Some; rewrite Hb.
Qed.

(** From values: member number i gets value number i. *)
Lemma attr_from_values p name vs w a w' po : nth_error (w_pops w) p = Some po -> p_size po <> 0%Z ->
  create_attribute p name (Some (VValues vs)) None None w = (Ok a, w') ->
  attribute_at w' p name a /\ length vs = length (p_ids po) /\
  (forall k v, holds w' a k v <-> exists i, nth_error (p_ids po) i = Some k /\ nth_error vs i = Some v).
Proof.
  intros Hp Hz H. destruct (created_attr _ _ _ _ _ _ _ _ _ Hp H) as (t & w1 & E & Ha & po1 & Hp1 & ->).
  unfold attr_table in E. mstep E. apply deref_ok in E0 as [E0 ->].
  assert (x = po) by congruence; subst x. destruct (p_size po =? 0)%Z eqn:Z0; [apply Z.eqb_eq in Z0; contradiction|].
  apply lift_ok in E as [E ->]. assert (po1 = po) by congruence; subst po1. cbn [table_of] in E.
  destruct (length vs =? length (p_ids po)) eqn:L; [|discriminate]. injection E as <-. apply Nat.eqb_eq in L.
  destruct (created_at p name w po a (combine (p_ids po) vs) Hp Ha) as (A1 & A2 & _ & _).
  split; [exact A1|]. split; [exact L|]. intros k v. rewrite A2. split.
  - intros K. apply In_nth_error in K as [i K]. exists i.
    assert (X := map_fst_combine (p_ids po) vs (eq_sym L)). assert (Y := map_snd_combine (p_ids po) vs (Nat.eq_le_incl _ _ L)).
    split; [rewrite <- X|rewrite <- Y]; rewrite nth_error_map, K; reflexivity.
  - intros (i & K1 & K2). eapply nth_error_combine_In; eassumption.
Qed.
Lemma attr_from_scalar p name v0 w a w' po : nth_error (w_pops w) p = Some po -> p_size po <> 0%Z ->
  create_attribute p name (Some (VScalar v0)) None None w = (Ok a, w') ->
  attribute_at w' p name a /\ (forall k v, holds w' a k v <-> In k (p_ids po) /\ v = v0).
Proof.
  intros Hp Hz H. destruct (created_attr _ _ _ _ _ _ _ _ _ Hp H) as (t & w1 & E & Ha & po1 & Hp1 & ->).
  unfold attr_table in E. mstep E. apply deref_ok in E0 as [E0 ->].
  assert (x = po) by congruence; subst x. destruct (p_size po =? 0)%Z eqn:Z0; [apply Z.eqb_eq in Z0; contradiction|].
  apply lift_ok in E as [E ->]. assert (po1 = po) by congruence; subst po1. cbn [table_of] in E.
  injection E as <-.
  destruct (created_at p name w po a (map (fun i => (i, v0)) (p_ids po)) Hp Ha) as (A1 & A2 & _ & _).
  split; [exact A1|]. intros k v. rewrite A2, in_map_iff. split.
  - intros (y & [= <- <-] & Hy). auto.
  - intros [Hk ->]. eauto.
Qed.
Lemma attr_from_gen p name g w a w' po : nth_error (w_pops w) p = Some po -> p_size po <> 0%Z ->
  create_attribute p name None (Some g) None w = (Ok a, w') ->
  exists vs, gen_generate (w_gens w) g (p_size po) = Ok (vs, w_gens w') /\ length vs = length (p_ids po) /\
  attribute_at w' p name a /\
  (forall k v, holds w' a k v <-> exists i, nth_error (p_ids po) i = Some k /\ nth_error vs i = Some v).
Proof.
  intros Hp Hz H. destruct (created_attr _ _ _ _ _ _ _ _ _ Hp H) as (t & w1 & E & Ha & po1 & Hp1 & ->).
  unfold attr_table in E. mstep E. apply deref_ok in E0 as [E0 ->].
  assert (x = po) by congruence; subst x. destruct (p_size po =? 0)%Z eqn:Z0; [apply Z.eqb_eq in Z0; contradiction|].
  mstep E. apply generate_ok in E1 as (gens & Eg & ->).
  apply lift_ok in E as [E ->]. assert (po1 = po) by (cbn [w_pops set_gens] in Hp1; congruence); subst po1. cbn [table_of] in E.
  destruct (length x =? length (p_ids po)) eqn:L; [|discriminate]. injection E as <-. apply Nat.eqb_eq in L.
  exists x. split; [exact Eg|]. split; [exact L|].
  destruct (created_at p name (set_gens gens w) po a (combine (p_ids po) x) Hp Ha) as (A1 & A2 & _ & _).
  split; [exact A1|]. intros k v. rewrite A2. split.
  - intros K. apply In_nth_error in K as [i K]. exists i.
    assert (X := map_fst_combine (p_ids po) x (eq_sym L)). assert (Y := map_snd_combine (p_ids po) x (Nat.eq_le_incl _ _ L)).
    split; [rewrite <- X|rewrite <- Y]; rewrite nth_error_map, K; reflexivity.
  - intros (i & K1 & K2). eapply nth_error_combine_In; eassumption.
Qed.
Lemma attr_from_rel p name rn w a w' po r rel : nth_error (w_pops w) p = Some po -> p_size po <> 0%Z ->
  dget rn (p_rels po) = Some r -> nth_error (w_rels w) r = Some rel -> reachable rel ->
  create_attribute p name None None (Some rn) w = (Ok a, w') ->
  attribute_at w' p name a /\ single_valued w' a /\
  (forall k v, holds w' a k v -> related rel k v \/ (isolated rel k /\ v = VNA)) /\
  (forall k t, related rel k t -> exists v, holds w' a k v).
Proof.
  intros Hp Hz Hr Hrel Re H. destruct (created_attr _ _ _ _ _ _ _ _ _ Hp H) as (t & w1 & E & Ha & po1 & Hp1 & ->).
  unfold attr_table in E. mstep E. apply deref_ok in E0 as [E0 ->].
  assert (x = po) by congruence; subst x. destruct (p_size po =? 0)%Z eqn:Z0; [apply Z.eqb_eq in Z0; contradiction|].
  mstep E. unfold get_relationship in E1. mstep E1. apply deref_ok in E2 as [E2 ->].
  assert (x0 = po) by congruence; subst x0. rewrite Hr in E1. apply lift_ok in E1 as [[= <-] ->].
  mstep E. apply deref_ok in E1 as [E1 ->]. assert (x = rel) by congruence; subst x.
  mstep E. apply lift_ok in E3 as [E3 ->]. destruct x as [rows rel']. mstep E. injection E4 as _ <-. injection E as <- <-.
  assert (po1 = po) by (cbn [w_pops set_rels] in Hp1; congruence); subst po1.
  destruct (select_all_froms _ _ _ Re E3) as (S1 & S2 & S3).
  destruct (created_at p name (set_rels (set_nth r rel' (w_rels w)) w) po a (map (fun '(_, from, to) => (from, to)) rows) Hp Ha)
    as (A1 & A2 & A3 & _).
  split; [exact A1|]. split; [|split].
  - apply A3. rewrite map_map. erewrite map_ext; [exact S1|]. now intros [[? ?] ?].
  - intros k v K. apply A2 in K. apply in_map_iff in K as ([[i f] t] & [= <- <-] & K). eauto.
  - intros k t K. apply S3 in K as (i & v & K). exists v. apply A2. apply in_map_iff. exists (i, k, v). auto.
Qed.

(** ** A population as a data frame *)
Lemma cell_app1 cols cells c v x : length cells = length cols -> In c cols -> cell (cols ++ [x]) (cells ++ [v]) c = cell cols cells c.
Proof.
  revert cells. induction cols as [|c0 cols IH]; intros [|u cells]; cbn; try easy. intros [= L] [->|H].
  - now rewrite String.eqb_refl.
  - rewrite IH by auto. reflexivity.
Qed.
Lemma cell_app2 cols cells c v : length cells = length cols -> ~ In c cols -> cell (cols ++ [c]) (cells ++ [v]) c = v.
Proof.
  revert cells. induction cols as [|c0 cols IH]; intros [|u cells]; cbn; try easy.
  - now rewrite String.eqb_refl.
  - intros [= L] N. destruct (String.eqb_spec c c0); [subst; tauto|]. apply IH; auto.
Qed.

Lemma attr_columns_ok p ids w : (forall n a, attribute_at w p n a -> single_valued w a) ->
  forall names acc d w', attr_columns p ids names acc w = (Ok d, w') ->
  NoDup (df_cols acc ++ names) -> map fst (df_rows acc) = ids ->
  (forall row, In row (df_rows acc) -> length (snd row) = length (df_cols acc)) ->
  (forall n a row, In n (df_cols acc) -> attribute_at w p n a -> In row (df_rows acc) ->
     holds w a (fst row) (cell (df_cols acc) (snd row) n)) ->
  w' = w /\ df_cols d = df_cols acc ++ names /\ map fst (df_rows d) = ids /\
  (forall n a row, In n (df_cols d) -> attribute_at w p n a -> In row (df_rows d) ->
     holds w a (fst row) (cell (df_cols d) (snd row) n)).
Proof.
  intros Sv. induction names as [|n names IH]; intros acc d w' H Nd Hi Hr Hc; cbn [attr_columns] in H.
  - injection H as <- <-. rewrite app_nil_r. auto.
  - mstep H.
    assert (A : exists a, attribute_at w p n a).
    { unfold get_attribute_values, get_attribute in E. mstep E. mstep E0. apply deref_ok in E1 as [E1 ->].
      apply lift_ok in E0 as [E0 ->]. destruct (dget n (p_attrs x1)) as [a|] eqn:D; [|discriminate]. exists a, x1. auto. }
    destruct A as [a A].
    destruct (values_of_ids p n ids w a A (Sv _ _ A)) as [(s & Es & Hs & Hh)|(Es & _)]; rewrite Es in E; [|discriminate].
    injection E as <- <-. rewrite Hs in H. replace (list_eqb ids ids) with true in H.
    2: { symmetry. now apply list_eqb_eq. }
    cbn [negb] in H.
    assert (L : length (df_rows acc) = length s) by (rewrite <- (map_length fst (df_rows acc)), <- (map_length fst s); congruence).
    assert (Nn : ~ In n (df_cols acc)).
    { intros K. apply NoDup_remove_2 in Nd. apply Nd. apply in_or_app. now left. }
    apply IH in H; cbn [df_cols df_rows] in *.
    + rewrite <- app_assoc in H. exact H.
    + rewrite <- app_assoc. exact Nd.
    + rewrite map_map. transitivity (map fst (map fst (combine (df_rows acc) s))).
      * rewrite map_map. apply map_ext. now intros [r kv].
      * rewrite (map_fst_combine _ _ L). exact Hi.
    + intros row K. apply in_map_iff in K as ([r kv] & <- & K). cbn. rewrite !app_length. cbn. f_equal.
      apply Hr. eapply in_combine_l; eauto.
    + intros m b row Hm Hb K. apply in_map_iff in K as ([r kv] & <- & K). cbn [fst snd].
      pose proof (in_combine_l _ _ _ _ K) as Kr. apply in_app_or in Hm as [Hm|[<-|[]]].
      * rewrite cell_app1; auto.
      * rewrite cell_app2; auto. assert (b = a).
        { destruct A as (po & Hp & Ha), Hb as (po' & Hp' & Hb). congruence. }
        subst b. assert (F : fst r = fst kv).
        { apply In_nth_error in K as [i K].
          assert (K1 : nth_error (df_rows acc) i = Some r).
          { rewrite <- (map_fst_combine (df_rows acc) s L). rewrite nth_error_map, K. reflexivity. }
          assert (K2 : nth_error s i = Some kv).
          { rewrite <- (map_snd_combine (df_rows acc) s) by lia. rewrite nth_error_map, K. reflexivity. }
          assert (K3 : nth_error ids i = Some (fst r)) by (rewrite <- Hi, nth_error_map, K1; reflexivity).
          assert (K4 : nth_error ids i = Some (fst kv)) by (rewrite <- Hs, nth_error_map, K2; reflexivity).
          congruence. }
        rewrite F. apply Hh. destruct kv. eapply in_combine_r; eauto.
Qed.
Lemma frame_shows g p w po d w' : built g w -> nth_error (w_pops w) p = Some po ->
  (forall n a, attribute_at w p n a -> single_valued w a) -> to_dataframe p w = (Ok d, w') ->
  w' = w /\ map fst (df_rows d) = p_ids po /\ NoDup (df_cols d) /\
  (forall n, In n (df_cols d) <-> exists a, attribute_at w p n a) /\
  (forall n a row, attribute_at w p n a -> In row (df_rows d) -> holds w a (fst row) (cell (df_cols d) (snd row) n)).
Proof.
  intros B Hp Sv H. unfold to_dataframe in H. mstep H. apply deref_ok in E as [E ->].
  assert (x = po) by congruence; subst x. destruct (built_own _ _ B) as (_ & _ & _ & _ & Hn). destruct (Hn _ _ Hp) as [Nd _].
  assert (Hk : forall n, In n (dkeys (p_attrs po)) <-> exists a, attribute_at w p n a).
  { intros n. split.
    - intros K. destruct (dget n (p_attrs po)) as [a|] eqn:D; [exists a, po; auto|]. apply dget_None in D. contradiction.
    - intros (a & po' & Hp' & D). assert (po' = po) by congruence; subst. eapply dget_Some_key; eauto. }
  destruct (attr_columns_ok p (p_ids po) w Sv _ _ _ _ H) as (-> & Hc & Hi & Hh); cbn [df_cols df_rows app] in *.
  - exact Nd.
  - rewrite map_map. apply map_id.
  - intros row K. apply in_map_iff in K as (i & <- & _). reflexivity.
  - easy.
  - split; [reflexivity|]. split; [exact Hi|]. rewrite Hc in *. split; [exact Nd|]. split; [exact Hk|].
    intros n a row A K. apply Hh; auto. apply Hk. eauto.
Qed.
Lemma attr_columns_runs p ids w : forall names acc,
  (forall n, In n names -> exists a, attribute_at w p n a /\ single_valued w a /\ forall i, In i ids -> exists v, holds w a i v) ->
  exists d, attr_columns p ids names acc w = (Ok d, w).
Proof.
  induction names as [|n names IH]; intros acc Hn; cbn [attr_columns]; [now eexists|].
  destruct (Hn n (or_introl eq_refl)) as (a & A & Sv & Hh).
  destruct (values_of_ids p n ids w a A Sv) as [(s & Es & Hs & _)|(_ & i & Hi & N)].
  2: { destruct (Hh i Hi) as [v Hv]. destruct (N v Hv). }
  unfold bindM. rewrite Es, Hs. replace (list_eqb ids ids) with true.
  2: { symmetry. now apply list_eqb_eq. }
  cbn [negb]. apply IH. intros m Hm. apply Hn. now right.
Qed.
Lemma frame_runs p w po : nth_error (w_pops w) p = Some po ->
  (forall n a, attribute_at w p n a -> single_valued w a /\ forall i, In i (p_ids po) -> exists v, holds w a i v) ->
  exists d, to_dataframe p w = (Ok d, w).
Proof.
  intros Hp H. unfold to_dataframe, bindM, deref. rewrite Hp. apply attr_columns_runs.
  intros n K. destruct (dget n (p_attrs po)) as [a|] eqn:D; [|apply dget_None in D; contradiction].
  assert (A : attribute_at w p n a) by (exists po; auto). exists a. split; [exact A|]. apply (H _ _ A).
Qed.

(** ** Selection of members *)
Lemma selector_built p n wa w o w' po : nth_error (w_pops w) p = Some po -> pop_select_one p n wa w = (Ok o, w') ->
  exists ws st, o = OpGenerate (length (w_gens w)) n None /\
    nth_error (w_gens w') (length (w_gens w)) = Some (GNumpy (NpChoice (p_ids po) ws) st None) /\
    (forall name, wa = Some name -> exists a t qs, attribute_at w p name a /\ nth_error (w_attrs w) a = Some t /\
       mapr as_Q (map snd t) = Ok qs /\ (forall q, In q qs -> (0 <= q)%Q) /\ ~ (qsum qs == 0)%Q /\
       ws = Some (map (fun q => Some (q / qsum qs)%Q) qs)).
Proof.
  intros Hp H. unfold pop_select_one in H. mstep H. apply deref_ok in E as [E ->]. assert (x = po) by congruence; subst x.
  mstep H. mstep H. apply seeder_ok in E1 as (sd & ->). mstep H. injection E1 as <- <-. mstep H. injection E1 as <- <-.
  mstep H. injection E1 as _ <-. injection H as <- <-. cbn [w_gens set_gens set_seeder].
  assert (W : w0 = w /\ forall name, wa = Some name -> exists a t qs, attribute_at w p name a /\ nth_error (w_attrs w) a = Some t /\
       mapr as_Q (map snd t) = Ok qs /\ (forall q, In q qs -> (0 <= q)%Q) /\ ~ (qsum qs == 0)%Q /\
       x = Some (map (fun q => Some (q / qsum qs)%Q) qs)).
  { destruct wa as [name|]; [|injection E0 as <- <-; split; [reflexivity|discriminate]].
    mstep E0. unfold get_attribute_values, get_attribute in E1. mstep E1. mstep E2. apply deref_ok in E3 as [E3 ->].
    apply lift_ok in E2 as [E2 ->]. mstep E1. apply deref_ok in E4 as [E4 ->]. apply lift_ok in E1 as [E1 ->].
    cbn [attr_get_values] in E1. injection E1 as <-. mstep E0. apply lift_ok in E1 as [E1 ->]. injection E0 as <- <-.
    split; [reflexivity|]. intros nm [= <-]. assert (x4 = po) by congruence; subst x4.
    destruct (dget name (p_attrs po)) as [a|] eqn:D; [|discriminate]. injection E2 as <-.
    unfold select_weights in E1. apply bind_ok in E1 as (qs & Eq & E1).
    destruct (existsb (fun q => Qltb q 0) qs) eqn:X; [discriminate|]. destruct (Qeq_bool (qsum qs) 0) eqn:Y; [discriminate|].
    injection E1 as <-. exists a, x5, qs. split; [exists po; auto|]. split; [exact E4|]. split; [exact Eq|]. split; [|split].
    - intros q Hq. apply Qnot_lt_le. intros L. assert (Z : existsb (fun q => Qltb q 0) qs = true); [|congruence].
      apply existsb_exists. exists q. split; [exact Hq|]. now apply Qltb_iff.
    - intros Z. apply Qeq_bool_iff in Z. congruence.
    - reflexivity. }
  destruct W as [-> W]. exists x, (random_state (w_prng w) x0). cbn [w_gens set_seeder] in *. split; [reflexivity|]. split; [|exact W].
  rewrite nth_error_app2, Nat.sub_diag by lia. reflexivity.
Qed.

Lemma chosen_values h g a ws st n vs h' : nth_error h g = Some (GNumpy (NpChoice a ws) st None) ->
  gen_generate h g n = Ok (vs, h') ->
  forall v, In v vs -> exists i, nth_error a i = Some v /\
    forall p, ws = Some p -> exists q, nth_error p i = Some (Some q) /\ (0 < q)%Q.
Proof.
  intros Hg E v Hv. unfold gen_generate in E. cbn [heap_generate] in E. rewrite Hg in E.
  apply bind_ok in E as ([x g'] & E & E'). injection E' as <- <-. cbn [gen_step] in E.
  apply bind_ok in E as ([y st'] & E & E'). injection E' as <- <-. unfold np_generate in E.
  destruct (n <? 0)%Z; [discriminate|]. destruct ws as [p|].
  - apply bind_ok in E as ([idx st2] & E1 & E). apply bind_ok in E as (z & E2 & E). injection E as <- <-.
    apply choice_p_spec in E1 as [_ F]. apply take_nth in E2. clear -E2 F Hv.
    induction E2 as [|i u is us Hi _ IH]; [easy|]. inversion F as [|? ? F1 F2]; subst. destruct Hv as [->|Hv]; [|auto].
    exists i. split; [exact Hi|]. intros p0 [= <-]. exact F1.
  - apply bind_ok in E as ([idx st2] & E1 & E). apply bind_ok in E as (z & E2 & E). injection E as <- <-.
    apply take_nth in E2. clear -E2 Hv.
    induction E2 as [|i u is us Hi _ IH]; [easy|]. destruct Hv as [->|Hv]; [|auto].
    exists i. split; [exact Hi|]. discriminate.
Qed.

Lemma member_selected p n wa w g w' po w2 d d' l w3 : nth_error (w_pops w) p = Some po ->
  pop_select_one p n wa w = (Ok (OpGenerate g n None), w') -> later w' w2 ->
  run_op (OpGenerate g n None) d w2 = (Ok (d', l), w3) -> ~ In n (df_cols d) ->
  exists vs, adds_column d d' n vs /\ (forall v, In v vs -> In v (p_ids po)) /\
    (forall name a t, wa = Some name -> attribute_at w p name a -> nth_error (w_attrs w) a = Some t ->
       map fst t = p_ids po -> forall v, In v vs -> exists x, holds w a v (VNum x) /\ (Q2Qc 0 < x)%Qc).
Proof.
  intros Hp H L R Nn. destruct (selector_built _ _ _ _ _ _ _ Hp H) as (ws & st & [= ->] & Hg & Hw).
  destruct (later_gens _ _ L _ _ Hg) as (g2 & Hg2 & S). destruct g2; try contradiction. cbn in S. destruct S as [<- S].
  assert (bound = None) by now apply S. subst bound.
  destruct (generate_adds _ _ _ _ _ _ _ R Nn) as (vs & gens' & E & A & _). unfold random_values in E.
  exists vs. split; [exact A|]. pose proof (chosen_values _ _ _ _ _ _ _ _ Hg2 E) as C. split.
  - intros v Hv. destruct (C v Hv) as (i & Hi & _). eapply nth_error_In; eauto.
  - intros name a t Ewa Ha Ht Hi v Hv. destruct (Hw _ Ewa) as (a' & t' & qs & Ha' & Ht' & Eq & Hpos & Hs & ->).
    assert (a' = a). { destruct Ha as (p1 & P1 & D1), Ha' as (p2 & P2 & D2). congruence. } subst a'.
    assert (t' = t) by congruence. subst t'.
    destruct (C v Hv) as (i & Hv' & Hq). destruct (Hq _ eq_refl) as (q & Hn & Hq').
    rewrite nth_error_map in Hn. destruct (nth_error qs i) as [q0|] eqn:N; [|discriminate]. injection Hn as <-.
    rewrite <- Hi, nth_error_map in Hv'. destruct (nth_error t i) as [[k x]|] eqn:Nt; [|discriminate]. injection Hv' as ->.
    apply mapr_ok_Forall2 in Eq. 
    assert (X : as_Q x = Ok q0).
    { exact (Forall2_at _ _ _ _ _ _ Eq (map_nth_error snd _ _ Nt) N). }
    destruct x; try discriminate. injection X as <-. exists q. split; [exists t; split; [exact Ht|eapply nth_error_In; eauto]|].
    assert (Hq0 : (0 <= q)%Q) by (apply Hpos; eapply nth_error_In; eauto).
    unfold Qclt. cbn. apply Qle_lteq in Hq0 as [Hq0|Hq0]; [exact Hq0|]. rewrite <- Hq0 in Hq'. unfold Qdiv in Hq'.
    rewrite Qmult_0_l in Hq'. discriminate.
Qed.

Lemma selection_refused p n name w po a t qs : nth_error (w_pops w) p = Some po -> dget name (p_attrs po) = Some a ->
  nth_error (w_attrs w) a = Some t -> mapr as_Q (map snd t) = Ok qs ->
  (exists q, In q qs /\ (q < 0)%Q) \/ (forall q, In q qs -> (q == 0)%Q) ->
  pop_select_one p n (Some name) w = (Err ValueError, w).
Proof.
  intros Hp Ha Ht Eq H. unfold pop_select_one, bindM, deref. rewrite Hp.
  unfold get_attribute_values, get_attribute, bindM, deref. rewrite Hp, Ha. unfold lift. rewrite Ht. cbn [attr_get_values].
  assert (X : select_weights t = Err ValueError); [|now rewrite X].
  unfold select_weights. rewrite Eq. cbn [bind]. destruct H as [(q & Hq & L)|Hz].
  - replace (existsb (fun q => Qltb q 0) qs) with true; [reflexivity|]. symmetry. apply existsb_exists. exists q.
    split; [exact Hq|now apply Qltb_iff].
  - destruct (existsb _ qs); [reflexivity|]. replace (Qeq_bool (qsum qs) 0) with true; [reflexivity|]. symmetry.
    apply Qeq_bool_iff. clear -Hz. unfold qsum. induction qs as [|q qs IH]; cbn; [reflexivity|].
    rewrite (Hz q (or_introl eq_refl)). rewrite Qplus_0_l. apply IH. intros; apply Hz; now right.
Qed.

(** ** Accumulation *)
Lemma total_neg k ids vs ns : Forall2 (fun v n => (exists q, v = VNum q /\ n = VNum (- q)%Qc) \/ (v = VNA /\ n = VNA)) vs ns ->
  total k (combine ids ns) = (- total k (combine ids vs))%Qc.
Proof.
  intros F. revert ids. induction F as [|v n vs ns H _ IH]; intros [|i ids]; cbn; try (unfold total; cbn; apply Qc_is_canon; reflexivity).
  unfold total in *. cbn. destruct H as [(q & -> & ->)|[-> ->]]; [|apply IH].
  destruct (val_eqb i k); rewrite IH; [ring|reflexivity].
Qed.
Lemma combine_listed d idf added : combine (map (fun row : val * list val => cell (df_cols d) (snd row) idf) (df_rows d))
    (map (fun row : val * list val => cell (df_cols d) (snd row) added) (df_rows d)) = listed d idf added.
Proof. unfold listed. induction (df_rows d) as [|r l IH]; cbn; [reflexivity|]. now rewrite IH. Qed.

Lemma add_op a idf added sub d w d' l w' : run_op (OpAttrAdd a idf added sub) d w = (Ok (d', l), w') ->
  single_valued w a ->
  d' = d /\ l = [] /\ only_attribute a w w' /\
  (forall k x, k <> VNA -> holds w a k (VNum x) ->
     holds w' a k (VNum (if sub then x - total k (listed d idf added) else x + total k (listed d idf added))%Qc)) /\
  (forall k, k <> VNA -> ~ In k (map fst (listed d idf added)) -> forall v, holds w' a k v <-> holds w a k v).
Proof.
  cbn [run_op]. intros H (t & Ht & Nd). unfold side_effect in H. mstep H. injection H as <- <- ->.
  split; [reflexivity|]. split; [reflexivity|]. unfold if_rows in E. destruct (df_rows d) as [|r0 rs] eqn:Er.
  { injection E as _ <-. split; [|split].
    - split; [split; [now destruct w|reflexivity]|reflexivity].
    - intros k x0 _ Hh. unfold listed. rewrite Er. cbn [map]. replace (if sub then _ else _) with x0; [exact Hh|].
      unfold total. cbn. destruct sub; ring.
    - tauto. }
  mstep E. apply lift_ok in E0 as [E0 ->]. mstep E. apply lift_ok in E1 as [E1 ->]. mstep E. apply lift_ok in E2 as [E2 ->].
  mstep E. apply deref_ok in E3 as [E3 ->]. assert (x3 = t) by congruence; subst x3.
  mstep E. apply lift_ok in E4 as [E4 ->]. injection E as _ <-.
  apply get_col_cells in E0, E2. subst x0 x2. rewrite map_map in E4. cbn [snd] in E4.
  destruct (attr_add_ok _ _ _ _ E4) as [Ek Hk].
  set (ids := map (fun row : val * list val => cell (df_cols d) (snd row) idf) (df_rows d)) in *.
  assert (T : forall k, total k (combine ids x1) = if sub then (- total k (listed d idf added))%Qc else total k (listed d idf added)).
  { intros k. rewrite <- combine_listed. fold ids. destruct sub.
    - apply total_neg. apply mapr_ok_Forall2 in E1. apply Forall2_map_l in E1. apply Forall2_map_l. eapply Forall2_weaken; [|exact E1].
      cbn [snd]. intros row n. destruct (cell (df_cols d) (snd row) added); try discriminate; intros [= <-]; solve [left; eauto | right; auto].
    - injection E1 as <-. rewrite map_map. reflexivity. }
  assert (Nd' : NoDup (map fst x3)) by (change (NoDup (dkeys x3)); rewrite Ek; exact Nd).
  assert (Hh : forall v k, holds (set_attrs (set_nth a x3 (w_attrs w)) w) a k v <-> dget k x3 = Some v).
  { intros v k. rewrite <- (In_dget_iff x3 k v Nd'). unfold holds. cbn [w_attrs set_attrs]. rewrite nth_error_set_nth, Nat.eqb_refl, Ht.
    split; [intros (t0 & [= <-] & K); exact K|eauto]. }
  assert (Hh0 : forall v k, holds w a k v <-> dget k t = Some v).
  { intros v k. rewrite <- (In_dget_iff t k v Nd). unfold holds. split; [intros (t0 & K0 & K); congruence|eauto]. }
  split; [apply set_attrs_only|]. split.
  - intros k q Hn Hq. apply Hh. apply Hh0 in Hq. destruct (Hk k Hn) as [H1 _]. rewrite (H1 _ Hq), T. destruct sub; reflexivity.
  - intros k Hn K v. rewrite Hh, Hh0. destruct (Hk k Hn) as [_ H2]. rewrite H2; [reflexivity|]. intros C. apply K.
    unfold listed. rewrite map_map. exact C.
Qed.

(** ** New relationships *)
Lemma relationship_replaced p name seed w po : nth_error (w_pops w) p = Some po ->
  exists r w' rel, create_relationship p name seed w = (Ok r, w') /\ relationship_at w' p name r /\
    nth_error (w_rels w') r = Some rel /\ (forall f t, ~ related rel f t) /\
    (forall r0, r0 < length (w_rels w) -> r0 <> r /\ nth_error (w_rels w') r0 = nth_error (w_rels w) r0).
Proof.
  intros Hp. destruct (create_rel_world p name seed w po Hp) as (s & sd & ->).
  eexists _, _, _. split; [reflexivity|]. cbn [w_rels w_pops set_pops set_rels set_seeder]. split; [|split; [|split]].
  - eexists. cbn [w_pops set_pops]. rewrite nth_error_set_nth, Nat.eqb_refl, Hp. split; [reflexivity|]. cbn [p_rels].
    rewrite dget_dset. now destruct (keqb_spec name name).
  - now rewrite nth_error_app2, Nat.sub_diag by lia.
  - intros f t [q []].
  - intros r0 L. split; [lia|]. now rewrite nth_error_app1.
Qed.
Lemma explicit_seed p name q w po : nth_error (w_pops w) p = Some po ->
  exists r w', create_relationship p name (Some (Npos q)) w = (Ok r, w') /\
    nth_error (w_rels w') r = Some (mkRelationship (Npos q) (random_state (w_prng w) (Npos q)) []) /\ w_seeder w' = w_seeder w.
Proof.
  intros Hp. unfold create_relationship, bindM, deref, ret, get, modify, put_pop, modify. rewrite Hp.
  eexists _, _. split; [reflexivity|]. cbn. split; [|reflexivity]. now rewrite nth_error_app2, Nat.sub_diag by lia.
Qed.
Lemma default_seed p name w po seed s : nth_error (w_pops w) p = Some po -> next_seed (w_seeder w) = (seed, s) ->
  exists r w', create_relationship p name None w = (Ok r, w') /\
    nth_error (w_rels w') r = Some (mkRelationship seed (random_state (w_prng w) seed) []) /\ w_seeder w' = s.
Proof.
  intros Hp E. unfold create_relationship, next_of_seeder, bindM, deref, ret, get, modify, put_pop, modify. rewrite Hp.
  rewrite E. eexists _, _. split; [reflexivity|]. cbn. split; [|reflexivity]. now rewrite nth_error_app2, Nat.sub_diag by lia.
Qed.
