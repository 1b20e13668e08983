(** Proofs of the utility properties in the form used by PropUtils.v. *)
From Verif Require Import Base BaseFacts Rng RngFacts Utils UtilsFacts.

Lemma latest_date_before_latest starting_date upper_bound time_step :
  (0 < time_step)%Z ->
  exists d n, latest_date_before starting_date upper_bound time_step = Ok d /\
    d = (starting_date + n * time_step)%Z /\ (d <= upper_bound)%Z /\
    (upper_bound < d + time_step)%Z /\
    forall m, (starting_date + m * time_step <= upper_bound)%Z ->
      (starting_date + m * time_step <= d)%Z.
Proof.
  intros Hs. destruct (latest_date_before_total starting_date upper_bound _ Hs) as (n & d & H & -> & H1 & H2).
  exists (starting_date + n * time_step)%Z, n. repeat split; try easy.
  intros m Hm. assert (m <= n)%Z; [|nia]. nia.
Qed.

Lemma zsum_fold l : zsum l = fold_right Z.add 0%Z l.
Proof. induction l; cbn; [easy|]. now rewrite IHl. Qed.

Lemma greedy_fair l : forall t i j ci xi cj,
  Forall (fun x => 0 <= x)%Z l -> (0 <= t)%Z -> i < j ->
  nth_error (greedy t l) i = Some ci -> nth_error l i = Some xi ->
  nth_error (greedy t l) j = Some cj -> (0 < cj)%Z -> ci = xi.
Proof.
  induction l as [|x l IH]; intros t i j ci xi cj Hf Ht Hij; [destruct i; easy|].
  inversion Hf as [|? ? Hx Hl]; subst. destruct j as [|j]; [lia|]. cbn [greedy nth_error].
  destruct i as [|i]; cbn [nth_error].
  - intros [= <-] [= <-] Hj Hc. destruct (Z.le_gt_cases x t); [lia|].
    exfalso. replace (t - Z.min x t)%Z with 0%Z in Hj by lia.
    pose proof (greedy_bounds l 0 Hl ltac:(lia)) as HB.
    pose proof (greedy_sum l 0 Hl ltac:(lia)) as HS.
    assert (H0 : forall m, Forall (fun c => 0 <= c)%Z m -> zsum m = 0%Z -> forall k c, nth_error m k = Some c -> c = 0%Z).
    { clear. induction m as [|y m IHm]; intros Hm Hz [|k] c; cbn in *; try easy; inversion Hm; subst.
      - intros [= <-]. pose proof (zsum_nonneg m H2). lia.
      - intros Hk. pose proof (zsum_nonneg m H2). apply (IHm H2) with (k := k); [lia|easy]. }
    assert (cj = 0)%Z; [|lia]. eapply (H0 (greedy 0 l)).
    + clear -HB. induction HB; constructor; [lia|easy].
    + rewrite HS. pose proof (zsum_nonneg l Hl). lia.
    + exact Hj.
  - intros Hi Hxi Hj Hc. apply (IH (t - Z.min x t)%Z i j ci xi cj); try easy; lia.
Qed.

Lemma cap_fair values total :
  Forall (fun x => 0 <= x)%Z values -> (0 <= total)%Z ->
  exists capped,
    cap_to_total values total = Ok capped /\
    Forall2 (fun c x => 0 <= c <= x)%Z capped values /\
    fold_right Z.add 0%Z capped = Z.min (fold_right Z.add 0%Z values) total /\
    (forall i j ci xi cj, i < j -> nth_error capped i = Some ci -> nth_error values i = Some xi ->
       nth_error capped j = Some cj -> (0 < cj)%Z -> ci = xi).
Proof.
  intros Hf Ht. exists (greedy total values). split; [now apply cap_to_total_greedy|].
  split; [now apply greedy_bounds|]. split.
  - rewrite <- !zsum_fold. now apply greedy_sum.
  - intros i j ci xi cj. now apply greedy_fair.
Qed.

Lemma merge_pointwise {K V} `{EqK K} (f : V -> V -> V) (keys : list K) (d1 d2 : dict K V) :
  NoDup (dkeys d1) -> NoDup (dkeys d2) ->
  NoDup keys -> (forall k, In k keys <-> In k (dkeys d1) \/ In k (dkeys d2)) ->
  exists d, merge_2_dicts_ord keys (Some f) d1 d2 = Ok d /\
    NoDup (dkeys d) /\
    forall k,
      (In k (dkeys d) <-> In k (dkeys d1) \/ In k (dkeys d2)) /\
      dget k d = match dget k d1, dget k d2 with
                 | Some a, Some b => Some (f a b)
                 | Some a, None => Some a
                 | None, Some b => Some b
                 | None, None => None
                 end.
Proof.
  intros _ _ Hn Hk. destruct (merge_ord_total f keys d1 d2) as [d Hd]; [intros k; apply Hk|].
  exists d. split; [easy|]. rewrite (merge_ord_keys _ _ _ _ _ Hd). split; [easy|].
  intros k. split; [apply Hk|]. rewrite (merge_ord_dget _ _ _ _ _ Hd Hk k). unfold merged_at.
  now destruct (dget k d1), (dget k d2).
Qed.

Lemma merge_disjoint {K V} `{EqK K} (d1 d2 : dict K V) :
  (forall k, In k (dkeys d1) -> ~ In k (dkeys d2)) ->
  NoDup (dkeys d1) -> NoDup (dkeys d2) ->
  exists d, merge_2_dicts (Some d1) (Some d2) None = Ok d /\ Permutation d (d1 ++ d2).
Proof.
  intros Hdis H1 H2. exists (d1 ++ d2). split; [|easy]. cbn [merge_2_dicts].
  assert (E : union_keys d1 d2 = dkeys (d1 ++ d2)).
  { unfold union_keys, dkeys. rewrite map_app. f_equal.
    assert (Hd : forall k, In k (map fst d2) -> dmem k d1 = false).
    { intros k Hk. destruct (dmem k d1) eqn:E; [|easy]. apply dmem_In in E. now apply Hdis in E. }
    induction (map fst d2) as [|k l IH]; cbn; [easy|]. rewrite Hd by now left. cbn.
    rewrite IH; [easy|]. intros; apply Hd. now right. }
  rewrite E. unfold merge_2_dicts_ord.
  assert (Hgen : forall l, incl l (d1 ++ d2) ->
     mapr (fun key => let! v := merged_value None d1 d2 key in Ok (key, v)) (dkeys l) = Ok l).
  { induction l as [|[k v] l IH]; cbn; intros Hi; [easy|].
    assert (Hm : merged_value None d1 d2 k = Ok v).
    { unfold merged_value. assert (Hin := Hi (k, v) (or_introl eq_refl)).
      apply in_app_iff in Hin as [Hin|Hin].
      - rewrite (In_dget _ _ _ H1 Hin).
        assert (Ek : dget k d2 = None).
        { apply dget_None. apply Hdis. apply in_map_iff. now exists (k, v). }
        now rewrite Ek.
      - rewrite (In_dget _ _ _ H2 Hin).
        assert (Ek : dget k d1 = None).
        { apply dget_None. intros Hk. apply Hdis in Hk. apply Hk. apply in_map_iff. now exists (k, v). }
        now rewrite Ek. }
    rewrite Hm. cbn [bind]. unfold dkeys in IH. rewrite IH; [easy|]. intros x Hx. apply Hi. now right. }
  apply Hgen. apply incl_refl.
Qed.

Lemma bipartite_degenerate (g1 g2 : list val) p edges :
  g1 = [] \/ g2 = [] \/ (p == 0)%Q -> make_random_bipartite_data g1 g2 p edges = Ok [].
Proof.
  unfold make_random_bipartite_data. intros [->|[->|H]]; cbn; [easy| |].
  - now rewrite orb_true_r.
  - apply Qeq_bool_iff in H. now rewrite H, orb_true_r.
Qed.

(** ** assign_random_proportions *)

Lemma rand_rows_spec n m : forall r rows r',
  rand_rows n m r = (rows, r') ->
  length rows = n /\ Forall (fun row => length row = m /\ Forall (fun q => 0 <= q)%Q row) rows.
Proof.
  induction n as [|n IH]; cbn [rand_rows]; intros r rows r'.
  - intros [= <- _]. auto.
  - destruct (draws uniform m r) as [row r1] eqn:E1. destruct (rand_rows n m r1) as [rows' r2] eqn:E2.
    intros [= <- _]. destruct (IH _ _ _ E2) as [El Hf]. cbn. split; [lia|]. constructor; [|easy].
    clear -E1. revert r row r1 E1. induction m as [|m IHm]; cbn [draws]; intros r row r1.
    + intros [= <- _]. auto.
    + destruct (uniform r) as [x ra] eqn:Eu. destruct (draws uniform m ra) as [xs rb] eqn:Ed.
      intros [= <- _]. destruct (IHm _ _ _ Ed). cbn. split; [lia|]. constructor; [|easy].
      now apply uniform_range in Eu as [? _].
Qed.

Lemma qsum_fold l : qsum l = fold_right Qplus 0%Q l.
Proof. induction l; cbn; [easy|]. now rewrite IHl. Qed.

Lemma qsum_div l s : (qsum (map (fun x => x / s) l) == qsum l / s)%Q.
Proof.
  induction l as [|x l IH]; cbn; [unfold Qdiv; ring|]. rewrite IH. unfold Qdiv. ring.
Qed.

Lemma qsum_ge0 l : Forall (fun q => 0 <= q)%Q l -> (0 <= qsum l)%Q.
Proof.
  induction 1; cbn; [apply Qle_refl|]. apply (Qplus_le_compat 0 _ 0); easy.
Qed.

Lemma qsum_ge l x : Forall (fun q => 0 <= q)%Q l -> In x l -> (x <= qsum l)%Q.
Proof.
  induction 1 as [|y l Hy Hl IH]; cbn; [easy|]. intros [->|Hi].
  - rewrite <- (Qplus_0_r x) at 1. apply Qplus_le_compat; [apply Qle_refl|now apply qsum_ge0].
  - rewrite <- (Qplus_0_l x). apply Qplus_le_compat; [easy|]. auto.
Qed.

Definition prop_row {B} (group2 : list B) (a : val) (row : list Q) : list (val * B * Q) :=
  if Qeq_bool (qsum row) 0 then []
  else map (fun '(b, x) => (a, b, (x / qsum row)%Q)) (combine group2 row).

Lemma prop_row_spec (group2 : list val) a row a' b w :
  length row = length group2 -> Forall (fun q => 0 <= q)%Q row ->
  In (a', b, w) (prop_row group2 a row) ->
  a' = a /\ In b group2 /\ (0 <= w <= 1)%Q /\ (qsum (map snd (prop_row group2 a row)) == 1)%Q.
Proof.
  intros El Hp. unfold prop_row. destruct (Qeq_bool (qsum row) 0) eqn:E; [easy|].
  assert (Hs : ~ (qsum row == 0)%Q) by (intros H; apply Qeq_bool_iff in H; congruence).
  assert (Hpos : (0 < qsum row)%Q).
  { pose proof (qsum_ge0 _ Hp) as H0.
    destruct (Qlt_le_dec 0 (qsum row)) as [|Hle]; [easy|]. exfalso. apply Hs. now apply Qle_antisym. }
  intros Hin. apply in_map_iff in Hin as ([b' x] & [= <- <- <-] & Hc). split; [easy|].
  split; [now apply in_combine_l in Hc|]. apply in_combine_r in Hc as Hx.
  rewrite Forall_forall in Hp. split; [split|].
  - apply Qle_shift_div_l; [easy|]. rewrite Qmult_0_l. auto.
  - apply Qle_shift_div_r; [easy|]. rewrite Qmult_1_l. apply qsum_ge; [now apply Forall_forall|easy].
  - rewrite map_map.
    assert (Em : map (fun x => snd (let '(b, x) := x in (a, b, (x / qsum row)%Q))) (combine group2 row)
                 = map (fun x => (x / qsum row)%Q) (map snd (combine group2 row))).
    { rewrite map_map. apply map_ext. now intros []. }
    rewrite Em, map_snd_combine by lia. rewrite qsum_div. field. easy.
Qed.

Lemma filter_none {A} (p : A -> bool) l : (forall x, In x l -> p x = false) -> filter p l = [].
Proof. induction l as [|x l IH]; cbn; intros H; [easy|]. rewrite H by auto. auto. Qed.

Lemma filter_all {A} (p : A -> bool) l : (forall x, In x l -> p x = true) -> filter p l = l.
Proof. induction l as [|x l IH]; cbn; intros H; [easy|]. rewrite H by auto. f_equal. auto. Qed.

Lemma random_proportions (group1 group2 : list val) r :
  NoDup group1 ->
  forall a b w, In (a, b, w) (assign_random_proportions group1 group2 r) ->
    In a group1 /\ In b group2 /\ (0 <= w <= 1)%Q /\
    (fold_right Qplus 0 (map snd (filter (fun x => keqb (fst (fst x)) a)
                                    (assign_random_proportions group1 group2 r))) == 1)%Q.
Proof.
  intros Hn a b w. unfold assign_random_proportions.
  destruct (rand_rows (length group1) (length group2) r) as [rows r'] eqn:Er.
  destruct (rand_rows_spec _ _ _ _ _ Er) as [El Hf].
  erewrite (flat_map_ext _ (fun ar => prop_row group2 (fst ar) (snd ar)));
    [|intros [a' row']; reflexivity].
  clear Er r r'.
  revert rows El Hf. induction Hn as [|a0 group1 Hna Hn IH]; intros [|row rows]; cbn; try easy.
  intros [= El] Hf. inversion Hf as [|? ? [Hlen Hpos] Hf']; subst.
  assert (Hfst : forall rows x, In x (flat_map (fun ar => prop_row group2 (fst ar) (snd ar)) (combine group1 rows)) ->
                 In (fst (fst x)) group1).
  { clear. intros rows x Hx. apply in_flat_map in Hx as ([a row] & Hc & Hx). cbn in Hx.
    unfold prop_row in Hx. destruct (Qeq_bool _ _); [easy|].
    apply in_map_iff in Hx as ([b y] & <- & _). cbn. now apply in_combine_l in Hc. }
  assert (Hfst0 : forall x, In x (prop_row group2 a0 row) -> fst (fst x) = a0).
  { intros x Hx. unfold prop_row in Hx. destruct (Qeq_bool _ _); [easy|].
    now apply in_map_iff in Hx as ([b' y] & <- & _). }
  rewrite in_app_iff, filter_app, map_app. intros [Hin|Hin].
  - destruct (prop_row_spec _ _ _ _ _ _ Hlen Hpos Hin) as (-> & Hb & Hw & Hs).
    split; [now left|]. split; [easy|]. split; [easy|].
    rewrite (filter_all _ (prop_row group2 a0 row)), (filter_none _ (flat_map _ _)).
    + cbn [map]. rewrite app_nil_r, <- qsum_fold. exact Hs.
    + intros x Hx. destruct (keqb_spec (fst (fst x)) a0) as [E|]; [|easy].
      exfalso. apply Hna. rewrite <- E. exact (Hfst _ _ Hx).
    + intros x Hx. rewrite (Hfst0 _ Hx). apply keqb_refl.
  - destruct (IH rows El Hf' Hin) as (Ha & Hb & Hw & Hs).
    split; [now right|]. split; [easy|]. split; [easy|].
    rewrite (filter_none _ (prop_row group2 a0 row)); [exact Hs|].
    intros x Hx. rewrite (Hfst0 _ Hx). destruct (keqb_spec a0 a) as [->|]; [|easy].
    now apply Hna in Ha.
Qed.
