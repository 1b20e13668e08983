(** Facts about attribute tables (Attribute.v). *)
From Verif Require Import Base BaseFacts Relationship RelationshipFacts RelationshipSelect Frame Attribute SpecAttribute.

Lemma remove_one_In x y l : In y (remove_one x l) -> In y l.
Proof.
  induction l as [|z l IH]; cbn; [tauto|].
  destruct (keqb_spec x z); [auto|]. cbn. intuition.
Qed.

Lemma remove_one_neq x y l : y <> x -> In y l -> In y (remove_one x l).
Proof.
  intros N. induction l as [|z l IH]; cbn; [tauto|].
  intros [E|H]; destruct (keqb_spec x z) as [Ex|Nx]; cbn; auto. congruence.
Qed.

Lemma remove_one_NoDup x l : NoDup l -> NoDup (remove_one x l) /\ ~ In x (remove_one x l).
Proof.
  induction l as [|z l IH]; cbn; intros H; [split; [constructor|tauto]|].
  inversion H as [|? ? Hz Hl]; subst. destruct (keqb_spec x z) as [->|N].
  - tauto.
  - destruct (IH Hl) as [I1 I2]. split.
    + constructor; [|exact I1]. intros Hi. apply Hz. eapply remove_one_In; eauto.
    + cbn. intros [E|Hi]; [congruence|tauto].
Qed.

Lemma multi_minus_In y a : forall b, In y (multi_minus b a) -> In y b.
Proof.
  unfold multi_minus. induction a as [|x a IH]; cbn; [auto|].
  intros b H. apply IH in H. eapply remove_one_In; eauto.
Qed.

Lemma multi_minus_other y a : forall b, ~ In y a -> In y b -> In y (multi_minus b a).
Proof.
  unfold multi_minus. induction a as [|x a IH]; cbn; [auto|].
  intros b N H. apply IH; [tauto|]. apply remove_one_neq; [|exact H]. intuition.
Qed.

Lemma multi_minus_NoDup a : forall b, NoDup b ->
  NoDup (multi_minus b a) /\ (forall y, In y (multi_minus b a) -> ~ In y a).
Proof.
  unfold multi_minus. induction a as [|x a IH]; cbn; intros b H; [split; [exact H|tauto]|].
  destruct (remove_one_NoDup x b H) as [H1 H2]. destruct (IH _ H1) as [I1 I2].
  split; [exact I1|]. intros y Hy [E|Ha].
  - subst. apply H2. apply (multi_minus_In y a). exact Hy.
  - exact (I2 _ Hy Ha).
Qed.

Lemma isort_In {A} (leb : A -> A -> bool) x l : In x (isort leb l) <-> In x l.
Proof.
  split; apply Permutation_in; [apply isort_perm|apply Permutation_sym, isort_perm].
Qed.

Lemma isort_NoDup {A} (leb : A -> A -> bool) l : NoDup l -> NoDup (isort leb l).
Proof. intros H. eapply Permutation_NoDup; [apply Permutation_sym, isort_perm|exact H]. Qed.

Lemma NoDup_app_disj {A} (a b : list A) :
  NoDup a -> NoDup b -> (forall x, In x b -> ~ In x a) -> NoDup (a ++ b).
Proof.
  induction a as [|x a IH]; cbn; intros Ha Hb D; [exact Hb|].
  inversion Ha; subst. constructor.
  - intros Hi. apply in_app_or in Hi. destruct Hi as [Hi|Hi]; [tauto|].
    apply (D x Hi). now left.
  - apply IH; auto. intros y Hy Hi. apply (D y Hy). now right.
Qed.

Lemma index_union_In x a b : In x (index_union a b) <-> In x a \/ In x b.
Proof.
  unfold index_union. destruct (list_eqb a b) eqn:E.
  - apply list_eqb_eq in E. subst. tauto.
  - destruct a as [|x0 a]; destruct b as [|y0 b]; try (cbn; tauto).
    rewrite isort_In, in_app_iff. split.
    + intros [H|H]; [auto|]. right. eapply multi_minus_In; eauto.
    + intros [H|H]; [auto|]. destruct (in_dec key_dec x (x0 :: a)); [auto|].
      right. apply multi_minus_other; auto.
Qed.

Lemma index_union_NoDup a b : NoDup a -> NoDup b -> NoDup (index_union a b).
Proof.
  intros Ha Hb. unfold index_union. destruct (list_eqb a b); [exact Ha|].
  destruct a; destruct b; auto. apply isort_NoDup.
  destruct (multi_minus_NoDup (v :: a) _ Hb). apply NoDup_app_disj; auto.
Qed.

(** a repeated label of [b] stays repeated *)
Lemma remove_one_app_in x l : In x l -> Permutation (x :: remove_one x l) l.
Proof.
  induction l as [|z l IH]; cbn; [tauto|].
  intros H. destruct (keqb_spec x z) as [->|N]; [apply Permutation_refl|].
  destruct H as [E|H]; [congruence|].
  eapply perm_trans; [apply perm_swap|]. constructor. apply IH, H.
Qed.

Lemma remove_one_not_in x l : ~ In x l -> remove_one x l = l.
Proof.
  induction l as [|z l IH]; cbn; intros N; [reflexivity|].
  destruct (keqb_spec x z) as [->|Hn]; [tauto|]. rewrite IH; [reflexivity|tauto].
Qed.

Lemma multi_minus_covers a : forall b, exists e, Permutation (a ++ multi_minus b a) (b ++ e).
Proof.
  unfold multi_minus. induction a as [|x a IH]; intros b; cbn.
  - exists []. rewrite app_nil_r. apply Permutation_refl.
  - destruct (IH (remove_one x b)) as (e & He).
    destruct (in_dec key_dec x b) as [H|H].
    + exists e. eapply perm_trans; [apply perm_skip; exact He|].
      change (x :: remove_one x b ++ e) with ((x :: remove_one x b) ++ e).
      apply Permutation_app_tail, remove_one_app_in, H.
    + exists (x :: e). eapply perm_trans; [apply perm_skip; exact He|].
      rewrite remove_one_not_in by exact H. apply Permutation_middle.
Qed.

Lemma index_union_keeps_dup a b : ~ NoDup b -> ~ NoDup (index_union a b).
Proof.
  intros N. unfold index_union. destruct (list_eqb a b) eqn:E.
  - apply list_eqb_eq in E. subst. exact N.
  - destruct a as [|x0 a]; destruct b as [|y0 b]; try exact N.
    + exfalso. apply N. constructor.
    + intros H. apply N. destruct (multi_minus_covers (x0 :: a) (y0 :: b)) as (e & He).
      apply (NoDup_app_l _ e). eapply Permutation_NoDup; [exact He|].
      eapply Permutation_NoDup; [apply isort_perm|exact H].
Qed.

Lemma dget_map_val {A B} (f : val -> A -> B) k (l : list (val * A)) :
  dget k (map (fun kv => (fst kv, f (fst kv) (snd kv))) l) = option_map (f k) (dget k l).
Proof.
  induction l as [|[k' v] l IH]; cbn; [reflexivity|].
  destruct (keqb_spec k k') as [->|N]; [reflexivity|apply IH].
Qed.

Lemma dget_tabulate {V} (f : val -> V) k l :
  dget k (map (fun i => (i, f i)) l) = if mem k l then Some (f k) else None.
Proof.
  induction l as [|i l IH]; cbn; [reflexivity|]. unfold mem in *. cbn.
  destruct (keqb_spec k i) as [->|N]; [reflexivity|apply IH].
Qed.

Lemma dkeys_tabulate {V} (f : val -> V) l : dkeys (map (fun i => (i, f i)) l) = l.
Proof. unfold dkeys. rewrite map_map. apply map_id. Qed.

Lemma dkeys_map_val {A B} (f : val * A -> B) (l : list (val * A)) :
  dkeys (map (fun kv => (fst kv, f kv)) l) = dkeys l.
Proof. unfold dkeys. rewrite map_map. reflexivity. Qed.

(** ** update *)

Lemma attr_update_ok t s : NoDup (dkeys t) -> NoDup (dkeys s) ->
  exists t', attr_update t s = (Ok tt, t') /\ dkeys t' = index_union (dkeys t) (dkeys s) /\
    NoDup (dkeys t') /\
    forall k, dget k t' = match dget k s with Some v => Some v | None => dget k t end.
Proof.
  intros Ht Hs. unfold attr_update.
  rewrite (proj2 (nodupb_NoDup _) Ht), (proj2 (nodupb_NoDup _) Hs). cbn [negb].
  eexists. split; [reflexivity|]. unfold series_reindex.
  assert (K : dkeys (map (fun kv : val * val =>
       (fst kv, match dget (fst kv) s with Some v => v | None => snd kv end))
     (map (fun k => (k, match dget k t with Some v => v | None => VNA end))
        (index_union (dkeys t) (dkeys s)))) = index_union (dkeys t) (dkeys s))
    by (rewrite dkeys_map_val; apply dkeys_tabulate).
  split; [exact K|]. split; [rewrite K; apply index_union_NoDup; auto|].
  intros k. rewrite (dget_map_val (fun k v => match dget k s with Some v' => v' | None => v end)).
  rewrite (dget_tabulate (fun k => match dget k t with Some v => v | None => VNA end)).
  destruct (mem k (index_union (dkeys t) (dkeys s))) eqn:M.
  - apply mem_In, index_union_In in M. cbn.
    destruct (dget k s) eqn:Es; [reflexivity|].
    destruct (dget k t) eqn:Et; [reflexivity|].
    apply dget_None in Es. apply dget_None in Et. tauto.
  - apply mem_not_In in M. cbn. rewrite index_union_In in M.
    rewrite (proj2 (dget_None k s)) by tauto. symmetry. apply dget_None. tauto.
Qed.

Lemma attr_update_dup t s : NoDup (dkeys t) -> ~ NoDup (dkeys s) ->
  exists t', attr_update t s = (Err ValueError, t') /\ ~ NoDup (dkeys t').
Proof.
  intros Ht Hs. unfold attr_update. rewrite (proj2 (nodupb_NoDup _) Ht). cbn [negb].
  destruct (nodupb (dkeys s)) eqn:E; [apply nodupb_NoDup in E; tauto|].
  eexists. split; [reflexivity|]. unfold series_reindex. rewrite dkeys_tabulate.
  apply index_union_keeps_dup, Hs.
Qed.

(** ** get_values *)

Lemma filter_key_NoDup {V} k (t : list (val * V)) : NoDup (dkeys t) ->
  filter (fun kv => keqb (fst kv) k) t = match dget k t with Some v => [(k, v)] | None => [] end.
Proof.
  induction t as [|[k' v] t IH]; cbn; intros H; [reflexivity|].
  inversion H as [|? ? Hk Ht]; subst.
  destruct (keqb_spec k' k) as [->|N].
  - rewrite keqb_refl. rewrite IH by exact Ht.
    destruct (dget k t) eqn:E; [|reflexivity]. apply dget_Some_key in E. tauto.
  - destruct (keqb_spec k k'); [congruence|]. apply IH, Ht.
Qed.

Lemma series_loc_ok t ids : NoDup (dkeys t) -> (forall i, In i ids -> In i (dkeys t)) ->
  exists r, series_loc t ids = Ok r /\ map fst r = ids /\
            Forall (fun iv => dget (fst iv) t = Some (snd iv)) r.
Proof.
  intros Ht Hi. unfold series_loc.
  replace (forallb (fun i => mem i (dkeys t)) ids) with true.
  2: { symmetry. apply forallb_forall. intros i H. apply mem_In, Hi, H. }
  eexists. split; [reflexivity|].
  induction ids as [|i ids IH]; cbn; [split; constructor|].
  rewrite filter_key_NoDup by exact Ht.
  destruct (dget i t) eqn:E.
  - cbn. destruct IH as [I1 I2]; [intros; apply Hi; now right|].
    split; [rewrite I1; reflexivity|]. constructor; [exact E|exact I2].
  - apply dget_None in E. exfalso. apply E, Hi. now left.
Qed.

Lemma series_loc_unknown t ids i : In i ids -> ~ In i (dkeys t) -> series_loc t ids = Err KeyError.
Proof.
  intros H N. unfold series_loc. destruct (forallb _ ids) eqn:E; [|reflexivity].
  rewrite forallb_forall in E. apply E, mem_In in H. tauto.
Qed.

(** ** add *)

Lemma val_sum_numeric l : (forall v, In v l -> numeric v) -> exists s, val_sum l = Ok s.
Proof.
  induction l as [|v l IH]; cbn [val_sum]; intros H; [eauto|].
  destruct IH as (s & E); [intros; apply H; now right|].
  pose proof (H v (or_introl eq_refl)) as Hv.
  destruct v; cbn in Hv; try tauto; rewrite E; cbn; eauto.
Qed.

Lemma val_sum_total k pairs s :
  val_sum (map snd (filter (fun kv => keqb (fst kv) k) pairs)) = Ok s -> s = total k pairs.
Proof.
  revert s. induction pairs as [|[k' v] pairs IH]; cbn; intros s H.
  - injection H as <-. reflexivity.
  - change (val_eqb k' k) with (keqb k' k).
    destruct (keqb k' k) eqn:E; cbn [map val_sum] in H.
    + cbn in H. destruct v; try discriminate H.
      * apply IH, H.
      * destruct (val_sum _) eqn:Es; [|discriminate]. cbn in H. injection H as <-.
        rewrite (IH _ eq_refl). reflexivity.
    + rewrite (IH _ H). destruct v; reflexivity.
Qed.

Lemma mapr_keys_dget {V} (f : val -> result V) l l' :
  mapr (fun i => let! s := f i in Ok (i, s)) l = Ok l' ->
  dkeys l' = l /\ forall k v, dget k l' = Some v -> f k = Ok v.
Proof.
  revert l'. induction l as [|i l IH]; cbn; intros l' H.
  - injection H as <-. split; [reflexivity|discriminate].
  - destruct (f i) as [s|] eqn:E; [|discriminate]. cbn in H.
    destruct (mapr _ l) as [l1|] eqn:E1; [|discriminate]. cbn in H. injection H as <-.
    destruct (IH _ eq_refl) as [I1 I2].
    split; [unfold dkeys in *; cbn; now rewrite I1|].
    intros k v. cbn [dget]. destruct (keqb_spec k i) as [->|N]; [congruence|apply I2].
Qed.

Lemma group_sums_ok ids added g : group_sums ids added = Ok g ->
  (forall k, In k (dkeys g) <-> In k ids /\ k <> VNA) /\
  forall k s, dget k g = Some s -> s = total k (combine ids added).
Proof.
  unfold group_sums. intros H. apply mapr_keys_dget in H. destruct H as [K S].
  split.
  - intros k. rewrite K, isort_In, uniq_In, filter_In.
    split; intros [A B]; split; auto.
    + intros ->. discriminate.
    + destruct k; try reflexivity. congruence.
  - intros k s Hg. apply val_sum_total with (k := k). apply S, Hg.
Qed.

Lemma mapr_keyed {A B} (f : val * A -> result (val * B)) l l' :
  (forall kv kv', f kv = Ok kv' -> fst kv' = fst kv) ->
  mapr f l = Ok l' ->
  dkeys l' = dkeys l /\
  forall k v, dget k l = Some v -> exists kv', f (k, v) = Ok kv' /\ dget k l' = Some (snd kv').
Proof.
  intros Hf. revert l'. induction l as [|[k0 v0] l IH]; cbn; intros l' H.
  - injection H as <-. split; [reflexivity|discriminate].
  - destruct (f (k0, v0)) as [kv'|] eqn:E; [|discriminate]. cbn in H.
    destruct (mapr f l) as [l1|] eqn:E1; [|discriminate]. cbn in H. injection H as <-.
    destruct (IH _ eq_refl) as [I1 I2]. pose proof (Hf _ _ E) as F. cbn in F.
    destruct kv' as [k1 v1]. cbn in F. subst k1.
    split; [unfold dkeys in *; cbn; now rewrite I1|].
    intros k v. cbn [dget]. destruct (keqb_spec k k0) as [->|N]; [|apply I2].
    intros [= <-]. exists (k0, v1). split; [exact E|reflexivity].
Qed.

Lemma total_absent k pairs : ~ In k (map fst pairs) -> total k pairs = Q2Qc 0.
Proof.
  induction pairs as [|[k' v] pairs IH]; cbn; intros N; [reflexivity|].
  change (val_eqb k' k) with (keqb k' k). destruct (keqb_spec k' k); [tauto|].
  unfold total in IH. rewrite IH by tauto. destruct v; reflexivity.
Qed.

Lemma map_fst_combine {A B} (a : list A) (b : list B) : length a = length b -> map fst (combine a b) = a.
Proof.
  revert b. induction a as [|x a IH]; intros [|y b] H; try discriminate; [reflexivity|].
  cbn. rewrite IH; [reflexivity|]. now injection H.
Qed.

Lemma attr_add_ok t ids added t' : attr_add t ids added = Ok t' ->
  dkeys t' = dkeys t /\
  forall k, k <> VNA ->
    (forall x, dget k t = Some (VNum x) -> dget k t' = Some (VNum (x + total k (combine ids added))%Qc)) /\
    (~ In k ids -> dget k t' = dget k t).
Proof.
  unfold attr_add. intros H.
  destruct (length ids =? length added) eqn:L; [|discriminate]. cbn [negb] in H.
  apply Nat.eqb_eq in L.
  destruct (nodupb (dkeys t)) eqn:Nd; [|discriminate]. cbn [negb] in H.
  destruct (group_sums ids added) as [g|] eqn:G; [|discriminate]. cbn [bind] in H.
  destruct (forallb _ (dkeys g)) eqn:F; [|discriminate]. cbn [negb] in H.
  destruct (group_sums_ok _ _ _ G) as [K S].
  assert (Hf : forall kv kv' : val * val,
     match dget (fst kv) g with
     | Some s => let! v := val_add (snd kv) (VNum s) in Ok (fst kv, v)
     | None => Ok kv
     end = Ok kv' -> fst kv' = fst kv).
  { intros [k v] kv'. cbn. destruct (dget k g); [|now intros [= <-]].
    destruct (val_add v (VNum q)); [|discriminate]. cbn. now intros [= <-]. }
  destruct (mapr_keyed _ _ _ Hf H) as [K' V']. split; [exact K'|].
  intros k Hk. split.
  - intros x Hx. destruct (V' _ _ Hx) as (kv' & E & D). cbn in E. rewrite D.
    destruct (dget k g) as [s|] eqn:Eg.
    + cbn in E. injection E as <-. cbn. rewrite (S _ _ Eg). reflexivity.
    + injection E as <-. cbn. f_equal. f_equal. apply dget_None in Eg.
      rewrite total_absent; [rewrite Qcplus_0_r; reflexivity|].
      rewrite map_fst_combine by exact L. intros Hi. apply Eg, K. auto.
  - intros Hi. destruct (dget k t) as [v|] eqn:E.
    + destruct (V' _ _ E) as (kv' & E1 & D). cbn in E1.
      rewrite (proj2 (dget_None k g)) in E1 by (rewrite K; tauto).
      injection E1 as <-. rewrite D. reflexivity.
    + apply dget_None. rewrite K'. apply dget_None, E.
Qed.

Lemma attr_add_runs t ids added : NoDup (dkeys t) -> length ids = length added ->
  (forall v, In v added -> numeric v) -> (forall k v, In (k, v) t -> numeric v) ->
  (forall i, In i ids -> i <> VNA -> In i (dkeys t)) ->
  exists t', attr_add t ids added = Ok t'.
Proof.
  intros Nd L Ha Ht Hi. unfold attr_add.
  rewrite (proj2 (Nat.eqb_eq _ _) L), (proj2 (nodupb_NoDup _) Nd). cbn [negb].
  assert (G : exists g, group_sums ids added = Ok g).
  { unfold group_sums. induction (isort val_leb (uniq (filter (fun i => negb (is_na i)) ids))) as [|i l IH];
      cbn [mapr]; [eauto|].
    destruct (val_sum_numeric (map snd (filter (fun kv => keqb (fst kv) i) (combine ids added))))
      as (s & E).
    { intros v Hv. apply in_map_iff in Hv. destruct Hv as ([a b] & <- & Hf).
      apply filter_In in Hf. destruct Hf as [Hf _]. apply in_combine_r in Hf. apply Ha, Hf. }
    rewrite E. cbn [bind]. destruct IH as (g & ->). cbn. eauto. }
  destruct G as (g & G). rewrite G. cbn [bind].
  destruct (group_sums_ok _ _ _ G) as [K _].
  replace (forallb (fun i => mem i (dkeys t)) (dkeys g)) with true.
  2: { symmetry. apply forallb_forall. intros i H. apply K in H. apply mem_In, Hi; tauto. }
  cbn [negb]. clear - Ht. induction t as [|[k v] t IH]; cbn [mapr]; [eauto|].
  destruct IH as (t' & ->); [intros; eapply Ht; right; eauto|].
  pose proof (Ht k v (or_introl eq_refl)) as Hv. cbn [fst snd].
  destruct (dget k g); [|cbn; eauto]. destruct v; cbn in Hv; try tauto; cbn; eauto.
Qed.

Lemma attr_add_unknown t ids added : NoDup (dkeys t) -> length ids = length added ->
  (forall v, In v added -> numeric v) -> forall i, In i ids -> i <> VNA -> ~ In i (dkeys t) ->
  attr_add t ids added = Err KeyError.
Proof.
  intros Nd L Ha i Hi Hn Hu. unfold attr_add.
  rewrite (proj2 (Nat.eqb_eq _ _) L), (proj2 (nodupb_NoDup _) Nd). cbn [negb].
  assert (G : exists g, group_sums ids added = Ok g).
  { unfold group_sums. induction (isort val_leb (uniq (filter (fun i => negb (is_na i)) ids))) as [|j l IH];
      cbn [mapr]; [eauto|].
    destruct (val_sum_numeric (map snd (filter (fun kv => keqb (fst kv) j) (combine ids added))))
      as (s & E).
    { intros v Hv. apply in_map_iff in Hv. destruct Hv as ([a b] & <- & Hf).
      apply filter_In in Hf. destruct Hf as [Hf _]. apply in_combine_r in Hf. apply Ha, Hf. }
    rewrite E. cbn [bind]. destruct IH as (g & ->). cbn. eauto. }
  destruct G as (g & G). rewrite G. cbn [bind].
  destruct (group_sums_ok _ _ _ G) as [K _].
  destruct (forallb _ (dkeys g)) eqn:F; [|reflexivity].
  rewrite forallb_forall in F. assert (In i (dkeys g)) by (apply K; auto).
  apply F, mem_In in H. tauto.
Qed.

(** Only the multiset of (id, value) pairs matters. *)
Lemma total_perm k p1 p2 : Permutation p1 p2 -> total k p1 = total k p2.
Proof.
  induction 1 as [|[k' v] p1 p2 _ IH|[k1 v1] [k2 v2] p|]; cbn; try congruence.
  - unfold total in IH. rewrite IH. reflexivity.
  - destruct v1, v2; try reflexivity.
    destruct (val_eqb k1 k), (val_eqb k2 k); try reflexivity. ring.
Qed.
