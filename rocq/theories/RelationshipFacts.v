(** Facts about the relationship model, through the abstract view of a
    relationship as a multiset of (from, to, weight) triples. *)
From Verif Require Import Base BaseFacts Rng RngFacts Utils UtilsFacts Relationship.
From Coq Require Import Lqa.

(** ** Abstract contents *)
Definition rview (rel : relations) : list (val * Q) := combine (to_ids rel) (weights rel).
Definition view (g : dict val relations) (f : val) : list (val * Q) :=
  match dget f g with Some rel => rview rel | None => [] end.

(** All triples stored in a relationship. *)
Definition contents (g : dict val relations) : list (val * val * Q) :=
  flat_map (fun kv => rel_triples (fst kv) (snd kv)) g.

Definition lview (l : list (val * val * Q)) (f : val) : list (val * Q) :=
  map (fun x => (snd (fst x), snd x)) (filter (fun x => keqb (fst (fst x)) f) l).

Definition rel_wf (rel : relations) : Prop :=
  length (weights rel) = length (to_ids rel) /\ weights_normed rel = normalise (weights rel).
Definition wf_grouped (g : dict val relations) : Prop :=
  NoDup (dkeys g) /\ Forall (fun kv => rel_wf (snd kv)) g.

Lemma Q_dec (a b : Q) : {a = b} + {a <> b}.
Proof.
  destruct a as [n d], b as [n' d'].
  destruct (Z.eq_dec n n') as [->|]; [|right; congruence].
  destruct (Pos.eq_dec d d') as [->|]; [left; easy|right; congruence].
Qed.
Definition pair_dec : forall a b : val * Q, {a = b} + {a <> b}.
Proof. decide equality; [apply Q_dec|apply key_dec]. Qed.
Definition triple_dec : forall a b : val * val * Q, {a = b} + {a <> b}.
Proof. decide equality; [apply Q_dec|]. decide equality; apply key_dec. Qed.

Lemma count_rel_triples f rel f' t w :
  count_occ triple_dec (rel_triples f rel) (f', t, w) =
  if key_dec f f' then count_occ pair_dec (rview rel) (t, w) else 0.
Proof.
  unfold rel_triples, rview. induction (combine (to_ids rel) (weights rel)) as [|[t1 w1] l IH]; cbn.
  - now destruct (key_dec f f').
  - destruct (triple_dec (f, t1, w1) (f', t, w)) as [E|N].
    + injection E as E1 E2 E3; subst. rewrite IH. destruct (key_dec f' f'); [|easy].
      now destruct (pair_dec (t, w) (t, w)).
    + rewrite IH. destruct (key_dec f f') as [->|]; [|easy].
      destruct (pair_dec (t1, w1) (t, w)) as [E|]; [|easy]. injection E as -> ->. easy.
Qed.

Lemma count_contents g f t w :
  NoDup (dkeys g) ->
  count_occ triple_dec (contents g) (f, t, w) = count_occ pair_dec (view g f) (t, w).
Proof.
  unfold contents, view. induction g as [|[f1 rel] g IH]; cbn; intros Hd; [easy|].
  inversion Hd as [|? ? Hn Hd']; subst. rewrite count_occ_app, count_rel_triples, IH by easy.
  destruct (keqb_spec f f1) as [->|Hne].
  - destruct (key_dec f1 f1); [|easy].
    replace (dget f1 g) with (@None relations); [cbn; lia|]. symmetry. now apply dget_None.
  - destruct (key_dec f1 f); [congruence|easy].
Qed.

Lemma count_lview l f t w :
  count_occ triple_dec l (f, t, w) = count_occ pair_dec (lview l f) (t, w).
Proof.
  unfold lview. induction l as [|[[f1 t1] w1] l IH]; cbn; [easy|].
  destruct (triple_dec (f1, t1, w1) (f, t, w)) as [E|N].
  - injection E as -> -> ->. rewrite keqb_refl. cbn. rewrite IH.
    now destruct (pair_dec (t, w) (t, w)).
  - rewrite IH. destruct (keqb_spec f1 f) as [->|]; [|easy]. cbn.
    destruct (pair_dec (t1, w1) (t, w)) as [E|]; [|easy]. injection E as -> ->. easy.
Qed.

Lemma contents_perm g l :
  NoDup (dkeys g) ->
  (Permutation (contents g) l <-> forall f, Permutation (view g f) (lview l f)).
Proof.
  intros Hd. rewrite (Permutation_count_occ triple_dec). split.
  - intros H f. apply (Permutation_count_occ pair_dec). intros [t w].
    now rewrite <- count_contents, <- count_lview.
  - intros H [[f t] w]. rewrite count_contents, count_lview by easy.
    now apply (Permutation_count_occ pair_dec).
Qed.

Lemma lview_app l1 l2 f : lview (l1 ++ l2) f = lview l1 f ++ lview l2 f.
Proof. unfold lview. now rewrite filter_app, map_app. Qed.

Lemma lview_perm l1 l2 f : Permutation l1 l2 -> Permutation (lview l1 f) (lview l2 f).
Proof.
  intros H. apply (Permutation_count_occ pair_dec). intros [t w].
  rewrite <- !count_lview. now apply (Permutation_count_occ triple_dec).
Qed.

Lemma lview_contents g f : NoDup (dkeys g) -> Permutation (lview (contents g) f) (view g f).
Proof.
  intros Hd. symmetry. revert f. apply contents_perm; easy.
Qed.

Lemma In_contents g f t w :
  NoDup (dkeys g) -> (In (f, t, w) (contents g) <-> In (t, w) (view g f)).
Proof.
  intros Hd. rewrite (count_occ_In triple_dec), (count_occ_In pair_dec), count_contents; easy.
Qed.

(** ** from_tuples *)
Section GroupConsecutive.
  Context {V : Type}.
  Implicit Types l : list (val * V).

  Definition group_get (g : list (val * list V)) (k : val) : list V :=
    match dget k g with Some vs => vs | None => [] end.

  Lemma group_keys_In l k : In k (map fst (group_consecutive l)) <-> In k (map fst l).
  Proof.
    induction l as [|[k1 v1] l IH]; cbn; [easy|].
    destruct (group_consecutive l) as [|[k2 vs] g]; cbn in *.
    - rewrite <- IH. tauto.
    - destruct (keqb_spec k1 k2) as [->|]; cbn; rewrite <- IH; tauto.
  Qed.

  Lemma group_sorted l :
    Sorted (fun a b => val_leb (fst a) (fst b) = true) l ->
    NoDup (map fst (group_consecutive l)).
  Proof.
    intros HS. apply Sorted_StronglySorted in HS;
      [|intros a b c; apply val_leb_trans].
    induction HS as [|[k1 v1] l HS IH Hle]; cbn; [constructor|].
    pose proof (fun k => group_keys_In l k) as HK. rewrite Forall_forall in Hle.
    destruct (group_consecutive l) as [|[k2 vs] g] eqn:E; cbn in *.
    - repeat constructor. easy.
    - destruct (keqb_spec k1 k2) as [->|Hne]; [exact IH|].
      constructor; [|exact IH]. cbn. intros [->|Hi]; [easy|].
      (* k1 appears later, but k2 is between *)
      assert (H2 : In k2 (map fst l)) by (apply HK; cbn; auto).
      assert (H12 : val_leb k1 k2 = true).
      { apply in_map_iff in H2 as ([k2' v2] & <- & H2). now apply (Hle _ H2). }
      destruct l as [|[k3 v3] l]; [easy|]. cbn in E.
      assert (k3 = k2).
      { destruct (group_consecutive l) as [|[k4 ?] ?]; [congruence|].
        destruct (keqb k3 k4); congruence. }
      subst k3. inversion HS as [|? ? _ Hle2]; subst. rewrite Forall_forall in Hle2.
      assert (Hk1 : In k1 (map fst ((k2, v3) :: l))) by (apply HK; cbn; auto).
      cbn in Hk1. destruct Hk1 as [->|Hk1]; [easy|].
      apply in_map_iff in Hk1 as ([k1' v1'] & <- & Hk1). apply Hle2 in Hk1. cbn in *.
      apply Hne. now apply val_leb_antisym.
  Qed.

  Lemma group_get_spec l k :
    NoDup (map fst (group_consecutive l)) ->
    group_get (group_consecutive l) k = map snd (filter (fun x => keqb (fst x) k) l).
  Proof.
    unfold group_get. revert k. induction l as [|[k1 v1] l IH]; cbn; intros k; [easy|].
    destruct (group_consecutive l) as [|[k2 vs] g] eqn:E; cbn in *.
    - intros _. specialize (IH k (NoDup_nil _)). rewrite keqb_sym.
      destruct (keqb_spec k1 k); cbn; [now rewrite <- IH|easy].
    - destruct (keqb_spec k1 k2) as [->|Hne]; cbn; intros Hd.
      + specialize (IH k Hd). rewrite keqb_sym. rewrite keqb_sym in IH.
        destruct (keqb_spec k2 k) as [->|]; cbn; [now rewrite <- IH|easy].
      + inversion Hd as [|? ? Hn Hd']; subst. specialize (IH k Hd').
        rewrite keqb_sym. destruct (keqb_spec k1 k) as [->|]; cbn; [|easy].
        destruct (keqb_spec k k2); [congruence|].
        destruct (dget k g) eqn:Eg; [|now rewrite <- IH].
        exfalso. apply Hn. apply dget_Some_key in Eg. cbn. auto.
  Qed.
End GroupConsecutive.

Definition lines (from_ids tos : list val) (ws : list Q) : list (val * val * Q) :=
  map (fun x => (fst x, fst (snd x), snd (snd x))) (combine from_ids (combine tos ws)).

Lemma dget_map_snd {K V W} `{EqK K} (f : V -> W) (d : list (K * V)) k :
  dget k (map (fun g => (fst g, f (snd g))) d) = option_map f (dget k d).
Proof.
  induction d as [|[k' v] d IH]; cbn; [easy|]. now destruct (keqb k k').
Qed.

Lemma combine_fst_snd {A B} (l : list (A * B)) : combine (map fst l) (map snd l) = l.
Proof. induction l as [|[a b] l IH]; cbn; [easy|now f_equal]. Qed.

Lemma rel_wf_new tos ws : length ws = length tos -> rel_wf (new_relations tos ws).
Proof. now split. Qed.

Lemma from_tuples_spec from_ids tos w d :
  from_tuples from_ids tos w = Ok d ->
  wf_grouped d /\
  (forall f, In f (dkeys d) <-> In f (map (fun x => fst (fst x)) (lines from_ids tos (weights_list (length from_ids) w)))) /\
  (forall f, Permutation (view d f)
               (lview (lines from_ids tos (weights_list (length from_ids) w)) f)).
Proof.
  unfold from_tuples. set (ws := weights_list (length from_ids) w).
  destruct ((_ <? _) || _) eqn:El; [easy|]. intros [= <-].
  set (raw := combine from_ids (combine tos ws)).
  set (ord := isort _ raw). assert (Hp : Permutation ord raw) by apply isort_perm.
  assert (HS : NoDup (map fst (group_consecutive ord))).
  { apply group_sorted. apply isort_sorted. intros a b. apply val_leb_total. }
  set (mk := fun vs => new_relations (map fst vs) (map snd vs)).
  assert (Hk : dkeys (map (fun g => (fst g, mk (snd g))) (group_consecutive ord))
               = map fst (group_consecutive ord)).
  { unfold dkeys. rewrite map_map. now apply map_ext. }
  repeat split.
  - change (NoDup (dkeys (map (fun g => (fst g, mk (snd g))) (group_consecutive ord)))). now rewrite Hk.
  - apply Forall_forall. intros [k rel] Hi. apply in_map_iff in Hi as ([k' vs] & [= <- <-] & _).
    apply rel_wf_new. cbn. now rewrite !map_length.
  - intros Hf. change (In f (dkeys (map (fun g => (fst g, mk (snd g))) (group_consecutive ord)))) in Hf.
    rewrite Hk, group_keys_In in Hf. unfold lines. rewrite map_map. cbn. fold raw.
    eapply Permutation_in; [apply Permutation_map, Hp|easy].
  - intros Hf. change (In f (dkeys (map (fun g => (fst g, mk (snd g))) (group_consecutive ord)))).
    rewrite Hk, group_keys_In. unfold lines in Hf. rewrite map_map in Hf. cbn in Hf. fold raw in Hf.
    eapply Permutation_in; [apply Permutation_map; symmetry; apply Hp|easy].
  - intros f. change (Permutation (view (map (fun g => (fst g, mk (snd g))) (group_consecutive ord)) f) (lview (lines from_ids tos ws) f)). unfold view. rewrite (dget_map_snd mk).
    assert (Hv : Permutation (group_get (group_consecutive ord) f)
                   (lview (lines from_ids tos ws) f)).
    { rewrite group_get_spec by easy. unfold lview, lines. fold raw.
      assert (E : forall l : list (val * (val * Q)),
        map (fun x => (snd (fst x), snd x))
          (filter (fun x => keqb (fst (fst x)) f) (map (fun x => (fst x, fst (snd x), snd (snd x))) l))
        = map snd (filter (fun x => keqb (fst x) f) l)).
      { induction l as [|[a [b c]] l IH]; cbn; [easy|]. destruct (keqb a f); cbn; now rewrite IH. }
      rewrite E. apply Permutation_map.
      clear -Hp. induction Hp as [|[a b] l1 l2 _ IH|[a b] [c d] l|l1 l2 l3 _ IH1 _ IH2]; cbn.
      - easy.
      - destruct (keqb a f); [now constructor|easy].
      - destruct (keqb a f), (keqb c f); try easy. apply perm_swap.
      - now rewrite IH1. }
    unfold group_get in Hv. destruct (dget f (group_consecutive ord)) as [vs|]; cbn; [|easy].
    unfold mk, rview, new_relations. cbn. now rewrite combine_fst_snd.
Qed.

Lemma from_tuples_ok from_ids tos w :
  length from_ids <= length tos ->
  length from_ids <= length (weights_list (length from_ids) w) ->
  exists d, from_tuples from_ids tos w = Ok d.
Proof.
  intros H1 H2. unfold from_tuples.
  destruct (Nat.ltb_spec (length tos) (length from_ids)); [lia|].
  destruct (Nat.ltb_spec (length (weights_list (length from_ids) w)) (length from_ids)); [lia|].
  cbn. eauto.
Qed.

(** ** Merging *)
Lemma wf_grouped_dget g f rel : wf_grouped g -> dget f g = Some rel -> rel_wf rel.
Proof.
  intros [_ Hf] E. apply dget_In in E. rewrite Forall_forall in Hf. now apply (Hf _ E).
Qed.

Lemma wf_grouped_intro g :
  NoDup (dkeys g) -> (forall f rel, dget f g = Some rel -> rel_wf rel) -> wf_grouped g.
Proof.
  intros Hd Hw. split; [easy|]. apply Forall_forall. intros [f rel] Hi.
  apply (Hw f). now apply In_dget.
Qed.

Lemma merge_wf h g d g' :
  wf_grouped g -> wf_grouped d ->
  (forall a b, rel_wf a -> rel_wf b -> rel_wf (h a b)) ->
  merge_2_dicts (Some g) (Some d) (Some h) = Ok g' -> wf_grouped g'.
Proof.
  intros Hg Hd Hh Hm. apply wf_grouped_intro.
  - rewrite (merge_ord_keys _ _ _ _ _ Hm). apply union_keys_NoDup; [apply Hg|apply Hd].
  - intros f rel. rewrite (merge_dget _ _ _ _ Hm). unfold merged_at.
    destruct (dget f g) eqn:E1, (dget f d) eqn:E2; intros [= <-];
      eauto using wf_grouped_dget.
Qed.

Lemma combine_app {A B} (a1 a2 : list A) (b1 b2 : list B) :
  length b1 = length a1 -> combine (a1 ++ a2) (b1 ++ b2) = combine a1 b1 ++ combine a2 b2.
Proof.
  revert b1; induction a1 as [|x a1 IH]; intros [|y b1]; cbn; try easy.
  intros [= E]. f_equal. now apply IH.
Qed.

Lemma rel_plus_wf a b : rel_wf a -> rel_wf b -> rel_wf (rel_plus a b).
Proof. intros [H1 _] [H2 _]. apply rel_wf_new. rewrite !app_length. lia. Qed.

Lemma rview_plus a b : rel_wf a -> rview (rel_plus a b) = rview a ++ rview b.
Proof. intros [H _]. unfold rview. cbn. now apply combine_app. Qed.

Lemma add_relations_spec r from_ids tos w r' :
  wf_grouped (grouped r) ->
  add_relations r from_ids tos w = Ok r' ->
  wf_grouped (grouped r') /\
  r_seed r' = r_seed r /\ r_state r' = r_state r /\
  Permutation (contents (grouped r'))
    (contents (grouped r) ++ lines from_ids tos (weights_list (length from_ids) w)).
Proof.
  intros Hw. unfold add_relations. intros H.
  apply bind_ok in H as (d & Hd & H). apply bind_ok in H as (g & Hg & [= <-]). cbn.
  apply from_tuples_spec in Hd as (Hwd & _ & Hv).
  assert (Hwg : wf_grouped g) by (exact (merge_wf _ _ _ _ Hw Hwd rel_plus_wf Hg)).
  repeat split; try apply Hwg.
  apply contents_perm; [apply Hwg|]. intros f.
  rewrite lview_app, lview_contents, <- Hv by apply Hw.
  unfold view. rewrite (merge_dget _ _ _ _ Hg). unfold merged_at.
  destruct (dget f (grouped r)) eqn:E1, (dget f d) eqn:E2; rewrite ?app_nil_r; try easy.
  rewrite rview_plus; [easy|]. exact (wf_grouped_dget _ _ _ Hw E1).
Qed.

Lemma add_relations_ok r from_ids tos w :
  length from_ids <= length tos ->
  length from_ids <= length (weights_list (length from_ids) w) ->
  exists r', add_relations r from_ids tos w = Ok r'.
Proof.
  intros H1 H2. unfold add_relations.
  destruct (from_tuples_ok from_ids tos w H1 H2) as [d ->]. cbn.
  destruct (merge_total rel_plus (grouped r) d) as [g Hg]. cbn in Hg. rewrite Hg. cbn. eauto.
Qed.

(** ** remove_relations *)
Lemma delete_argwhere {A} (bs : list bool) (l : list A) i js :
  length bs = length l -> (forall j, In j js -> j < i) ->
  delete_from i (js ++ argwhere i bs) l = map snd (filter (fun x => negb (fst x)) (combine bs l)).
Proof.
  revert l i js; induction bs as [|b bs IH]; intros [|x l] i js; cbn; try easy.
  intros [= El] Hj. rewrite existsb_app.
  assert (E : existsb (Nat.eqb i) js = false).
  { apply not_true_is_false. rewrite existsb_exists. intros (j & Hi & Ej).
    apply Nat.eqb_eq in Ej. subst. apply Hj in Hi. lia. }
  rewrite E. cbn. destruct b; cbn.
  - rewrite Nat.eqb_refl. cbn.
    replace (js ++ i :: argwhere (S i) bs) with ((js ++ [i]) ++ argwhere (S i) bs)
      by now rewrite <- app_assoc.
    apply IH; [easy|]. intros j Hi. apply in_app_iff in Hi as [Hi|[<-|[]]]; [apply Hj in Hi; lia|lia].
  - assert (E2 : existsb (Nat.eqb i) (argwhere (S i) bs) = false).
    { clear. assert (H : forall k, i < k -> existsb (Nat.eqb i) (argwhere k bs) = false).
      { induction bs as [|b bs IH]; cbn; intros k Hk; [easy|].
        destruct b; cbn; [|apply IH; lia]. rewrite IH by lia.
        destruct (Nat.eqb_spec i k); [lia|easy]. }
      apply H. lia. }
    rewrite E2. f_equal. apply IH; [easy|]. intros j Hi. apply Hj in Hi. lia.
Qed.

Lemma delete_where {A} (p : A -> bool) (l : list A) :
  np_delete (argwhere 0 (map p l)) l = filter (fun x => negb (p x)) l.
Proof.
  unfold np_delete. etransitivity; [apply (delete_argwhere (map p l) l 0 []); [apply map_length|easy]|].
  induction l as [|x l IH]; cbn; [easy|]. destruct (p x); cbn; now rewrite IH.
Qed.

Lemma delete_from_combine {A B} idxs i (a : list A) (b : list B) :
  length b = length a ->
  delete_from i idxs (combine a b) = combine (delete_from i idxs a) (delete_from i idxs b).
Proof.
  revert i b; induction a as [|x a IH]; intros i [|y b]; cbn; try easy.
  intros [= E]. destruct (existsb _ _); cbn; now rewrite IH.
Qed.

Lemma delete_from_length {A B} idxs i (a : list A) (b : list B) :
  length b = length a -> length (delete_from i idxs b) = length (delete_from i idxs a).
Proof.
  revert i b; induction a as [|x a IH]; intros i [|y b]; cbn; try easy.
  intros [= E]. destruct (existsb _ _); cbn; auto.
Qed.

Lemma rel_minus_wf a b : rel_wf a -> rel_wf (rel_minus a b).
Proof.
  intros [H _]. apply rel_wf_new. now apply delete_from_length.
Qed.

Lemma rview_minus a b :
  rel_wf a -> rview (rel_minus a b) = filter (fun x => negb (mem (fst x) (to_ids b))) (rview a).
Proof.
  intros [H _]. unfold rview, rel_minus. cbn.
  rewrite <- (delete_where (fun x => mem (fst x) (to_ids b))).
  unfold np_delete. rewrite delete_from_combine by easy.
  replace (map (fun x : val * Q => mem (fst x) (to_ids b)) (combine (to_ids a) (weights a)))
    with (map (fun t => mem t (to_ids b)) (to_ids a)); [easy|].
  rewrite <- (map_map fst (fun t => mem t (to_ids b))). f_equal. symmetry. apply map_fst_combine. lia.
Qed.

(** Precisely what remove_relations does to the stored triples: known froms lose all
    the mentioned relations, unknown froms gain them with weight 0. *)
Definition pair_mem (pairs : list (val * val)) (x : val * val * Q) : bool :=
  existsb (fun p => keqb (fst p) (fst (fst x)) && keqb (snd p) (snd (fst x))) pairs.

Lemma pair_mem_In pairs f t w : pair_mem pairs (f, t, w) = true <-> In (f, t) pairs.
Proof.
  unfold pair_mem. rewrite existsb_exists. split.
  - intros ([f' t'] & Hi & E). cbn in E. apply andb_true_iff in E as [E1 E2].
    apply keqb_eq in E1, E2. now subst.
  - intros Hi. exists (f, t). cbn. now rewrite !keqb_refl.
Qed.

Lemma lview_filter p l f :
  lview (filter p l) f = map (fun x => (snd (fst x), snd x))
    (filter (fun x => keqb (fst (fst x)) f && p x) l).
Proof.
  unfold lview. f_equal. induction l as [|x l IH]; cbn; [easy|].
  destruct (p x) eqn:E; cbn; destruct (keqb (fst (fst x)) f); cbn; rewrite ?E, IH; easy.
Qed.

Lemma filter_perm {A} (p : A -> bool) l1 l2 :
  Permutation l1 l2 -> Permutation (filter p l1) (filter p l2).
Proof.
  induction 1 as [|x l1 l2 _ IH|x y l|l1 l2 l3 _ IH1 _ IH2]; cbn; [easy| | |now rewrite IH1].
  - destruct (p x); [now constructor|easy].
  - destruct (p x), (p y); try easy. apply perm_swap.
Qed.

Lemma lview_filter_pairs l f (q : val * Q -> bool) (p : val * val * Q -> bool) :
  (forall t w, p (f, t, w) = q (t, w)) -> lview (filter p l) f = filter q (lview l f).
Proof.
  intros H. unfold lview. induction l as [|[[f1 t1] w1] l IH]; cbn; [easy|].
  destruct (keqb_spec f1 f) as [->|Hn]; cbn.
  - rewrite H. destruct (q (t1, w1)); cbn; rewrite ?keqb_refl; cbn; now rewrite IH.
  - destruct (p (f1, t1, w1)); cbn; [|easy]. destruct (keqb_spec f1 f); [easy|]. apply IH.
Qed.

Definition zero_lines (from_ids tos : list val) : list (val * val * Q) :=
  lines from_ids tos (repeat 0%Q (length from_ids)).

Lemma In_lines_0 from_ids tos f t :
  length from_ids <= length tos ->
  (In (f, t) (combine from_ids tos) <-> exists w, In (f, t, w) (zero_lines from_ids tos)).
Proof.
  unfold zero_lines, lines. revert tos.
  induction from_ids as [|a from_ids IH]; intros [|b tos]; cbn; intros Hl; try lia.
  - split; [easy|]. now intros [w []].
  - split; [easy|]. now intros [w []].
  - rewrite IH by lia. split.
    + intros [E|[w Hw]]; [injection E as -> ->; eauto|eauto].
    + intros [w [E|Hw]]; [injection E as -> -> _; auto|eauto].
Qed.

Lemma remove_relations_spec r from_ids tos r' :
  wf_grouped (grouped r) ->
  remove_relations r from_ids tos = Ok r' ->
  wf_grouped (grouped r') /\ r_seed r' = r_seed r /\ r_state r' = r_state r /\
  Permutation (contents (grouped r'))
    (filter (fun x => negb (pair_mem (combine from_ids tos) x)) (contents (grouped r))
     ++ filter (fun x => negb (dmem (fst (fst x)) (grouped r))) (zero_lines from_ids tos)).
Proof.
  intros Hw. unfold remove_relations. intros H.
  apply bind_ok in H as (d & Hd & H). apply bind_ok in H as (g & Hg & [= <-]). cbn.
  assert (Hlen : length from_ids <= length tos).
  { unfold from_tuples in Hd. destruct (Nat.ltb_spec (length tos) (length from_ids)); [easy|lia]. }
  pose proof (from_tuples_spec _ _ _ _ Hd) as (Hwd & Hkd & Hv). cbn [weights_list] in *.
  fold (zero_lines from_ids tos) in *.
  assert (Hwg : wf_grouped g).
  { eapply merge_wf; [apply Hw|apply Hwd| |eauto]. intros; now apply rel_minus_wf. }
  repeat split; try apply Hwg.
  apply contents_perm; [apply Hwg|]. intros f. rewrite lview_app.
  unfold view at 1. rewrite (merge_dget _ _ _ _ Hg). unfold merged_at.
  destruct (dget f (grouped r)) as [rel|] eqn:E1.
  - assert (Hz : lview (filter (fun x => negb (dmem (fst (fst x)) (grouped r))) (zero_lines from_ids tos)) f = []).
    { rewrite (lview_filter_pairs _ _ (fun _ => false)).
      - induction (lview (zero_lines from_ids tos) f); cbn; auto.
      - intros t w. cbn. unfold dmem. now rewrite E1. }
    rewrite Hz, app_nil_r.
    set (q := fun x : val * Q => negb (pair_mem (combine from_ids tos) (f, fst x, snd x))).
    rewrite (lview_filter_pairs _ _ q) by easy.
    rewrite (filter_perm q _ (view (grouped r) f)) by (apply lview_contents, Hw).
    unfold view. rewrite E1.
    assert (Hwr : rel_wf rel) by exact (wf_grouped_dget _ _ _ Hw E1).
    assert (Hmem : forall t, In (f, t) (combine from_ids tos) <-> In t (map fst (view d f))).
    { intros t. rewrite In_lines_0 by easy. rewrite in_map_iff. split.
      - intros [w Hi]. exists (t, w). split; [easy|].
        apply (Permutation_in _ (Permutation_sym (Hv f))). unfold lview.
        apply in_map_iff. exists (f, t, w). split; [easy|]. apply filter_In. cbn.
        now rewrite keqb_refl.
      - intros ([t' w] & Et & Hi). cbn in Et. subst t'. exists w.
        apply (Permutation_in _ (Hv f)) in Hi. unfold lview in Hi.
        apply in_map_iff in Hi as ([[f2 t2] w2] & [= -> ->] & Hi). cbn in Hi.
        apply filter_In in Hi as [Hi E]. cbn in E. apply keqb_eq in E. now subst. }
    unfold view in Hmem. destruct (dget f d) as [rel2|] eqn:E2.
    + rewrite rview_minus by easy. apply Permutation_refl'. apply filter_ext.
      intros [t w]. unfold q. cbn. f_equal. apply eq_true_iff_eq.
      rewrite pair_mem_In, mem_In, Hmem. unfold rview.
      rewrite map_fst_combine; [easy|]. destruct (wf_grouped_dget _ _ _ Hwd E2) as [El _]. lia.
    + symmetry. apply Permutation_refl'. apply filter_all_true. intros [t w] _. unfold q. cbn.
      apply negb_true_iff. apply not_true_is_false. rewrite pair_mem_In, Hmem. easy.
  - assert (Hz : lview (filter (fun x => negb (dmem (fst (fst x)) (grouped r))) (zero_lines from_ids tos)) f
                 = lview (zero_lines from_ids tos) f).
    { rewrite (lview_filter_pairs _ _ (fun _ => true)).
      - apply filter_all_true. easy.
      - intros t w. cbn. unfold dmem. now rewrite E1. }
    rewrite Hz.
    assert (Hc : lview (filter (fun x => negb (pair_mem (combine from_ids tos) x)) (contents (grouped r))) f = []).
    { set (q := fun x : val * Q => negb (pair_mem (combine from_ids tos) (f, fst x, snd x))).
      rewrite (lview_filter_pairs _ _ q) by easy.
      assert (Hvn : lview (contents (grouped r)) f = []).
      { apply Permutation_nil. symmetry. rewrite lview_contents by apply Hw. unfold view. now rewrite E1. }
      now rewrite Hvn. }
    rewrite Hc. cbn. rewrite <- Hv. unfold view. destruct (dget f d); easy.
Qed.

Lemma remove_relations_ok r from_ids tos :
  length from_ids <= length tos -> exists r', remove_relations r from_ids tos = Ok r'.
Proof.
  intros H1. unfold remove_relations.
  destruct (from_tuples_ok from_ids tos (WScalar 0) H1) as [d ->].
  { cbn. rewrite repeat_length. lia. }
  cbn. destruct (merge_total rel_minus (grouped r) d) as [g Hg]. cbn in Hg. rewrite Hg. cbn. eauto.
Qed.

Lemma list_eqb_eq {K} `{EqK K} (a b : list K) : list_eqb a b = true <-> a = b.
Proof.
  unfold list_eqb. revert b; induction a as [|x a IH]; intros [|y b]; cbn; try easy.
  specialize (IH b). cbn [length combine forallb] in *. rewrite !andb_true_iff in *.
  destruct (keqb_spec x y) as [->|Hn]; split.
  - intros (H1 & _ & H2). f_equal. now apply IH.
  - intros [= ->]. destruct IH as [_ IH]. destruct (IH eq_refl). easy.
  - now intros (_ & Hf & _).
  - now intros [= Hx].
Qed.

Lemma NoDup_map_filter {A B} (g : A -> B) (f : A -> bool) l : NoDup (map g l) -> NoDup (map g (filter f l)).
Proof.
  induction l as [|x l IH]; cbn; intros H; [constructor|]. inversion H as [|? ? Hx Hl]; subst.
  destruct (f x); [|auto]. cbn. constructor; [|auto]. intros Hi. apply Hx.
  apply in_map_iff in Hi as (z & <- & Hz). apply filter_In in Hz as [Hz _]. now apply in_map.
Qed.
