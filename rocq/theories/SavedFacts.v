(** What an update of a population that did not raise has stored (population.py:72-117). *)
From Verif Require Import Base BaseFacts Rng Utils UtilsFacts Relationship Frame Gens Clock Attribute SpecAttribute AttributeFacts World Story Ops OpsFacts Fs Helpers HelpersFacts
  Circus SpecStory StoryFacts SpecOps OpsProps OpsColumns OpsMore SpecPopulation SpecLocal PopProps ActFacts.

Lemma update_attr_ok a s w w' : update_attr a s w = (Ok tt, w') ->
  w_pops w' = w_pops w /\ (forall b, b <> a -> nth_error (w_attrs w') b = nth_error (w_attrs w) b).
Proof.
  intros H. unfold update_attr in H. apply bindM_ok in H as (t & w1 & E & H). apply deref_ok in E as (E & ->).
  destruct (attr_update t s) as [res t']. apply bindM_ok in H as (u & w1 & E1 & H). apply lift_ok in H as (_ & ->).
  unfold put_attr, modify in E1. injection E1 as _ <-. split; [reflexivity|]. intros b Hb. cbn. rewrite nth_error_set_nth.
  destruct (Nat.eqb_spec a b); [congruence|reflexivity].
Qed.

Section Saved.
  Context (p : nat) (po : pop) (name : string) (x : nat).
  Hypothesis inj : forall n m a, dget n (p_attrs po) = Some a -> dget m (p_attrs po) = Some a -> n = m.
  Hypothesis at_name : dget name (p_attrs po) = Some x.

  Lemma foreach_saved (d : df) : NoDup (df_index d) -> forall names w w', NoDup names -> nth_error (w_pops w) p = Some po -> single_valued w x ->
    foreach (fun n => let* s := lift (get_col d n) in let* a := get_attribute p n in update_attr a s) names w = (Ok tt, w') ->
    w_pops w' = w_pops w /\
    (~ In name names -> nth_error (w_attrs w') x = nth_error (w_attrs w) x) /\
    (In name names -> single_valued w' x /\
      forall k v, holds w' x k v <-> In (k, v) (map (fun row => (fst row, cell (df_cols d) (snd row) name)) (df_rows d)) \/ ~ In k (df_index d) /\ holds w x k v).
  Proof.
    intros Nd. induction names as [|n names IH]; intros w w' Nn Hp Sv H; cbn [foreach] in H.
    { injection H as <-. split; [reflexivity|]. split; [reflexivity|intros []]. }
    inversion Nn as [|? ? Nn1 Nn2]; subst. apply bindM_ok in H as ([] & w1 & H1 & H).
    apply bindM_ok in H1 as (s & v1 & E1 & H1). apply lift_ok in E1 as (Es & ->).
    apply bindM_ok in H1 as (a & v1 & E1 & H1). unfold get_attribute in E1. apply bindM_ok in E1 as (po' & v2 & E2 & E1). apply deref_ok in E2 as (E2 & ->). apply lift_ok in E1 as (E1 & ->).
    rewrite Hp in E2. injection E2 as <-. destruct (dget n (p_attrs po)) as [a'|] eqn:Ea; [|discriminate]. injection E1 as ->.
    apply get_col_cells in Es. destruct (update_attr_ok _ _ _ _ H1) as [Pp Po].
    assert (Hp1 : nth_error (w_pops w1) p = Some po) by (now rewrite Pp).
    destruct (key_dec n name) as [->|Ne].
    - assert (a = x) by congruence. subst a. assert (Ks : map fst s = df_index d) by (subst s; rewrite map_map; reflexivity).
      destruct (update_points x s w Sv) as (w2 & U & _ & S1 & V1); [now rewrite Ks|]. rewrite U in H1. injection H1 as <-.
      destruct (IH _ _ Nn2 Hp1 S1 H) as (A1 & A2 & _). split; [congruence|]. split; [intros C; destruct C; now left|]. intros _. specialize (A2 Nn1).
      split; [unfold single_valued; now rewrite A2|]. intros k v. unfold holds at 1. rewrite A2. fold (holds w2 x k v). rewrite V1, Ks. now subst s.
    - assert (Nx : x <> a) by (intros <-; apply Ne; exact (inj _ _ _ Ea at_name)). specialize (Po _ Nx).
      assert (S1 : single_valued w1 x) by (unfold single_valued; now rewrite Po).
      destruct (IH _ _ Nn2 Hp1 S1 H) as (A1 & A2 & A3). split; [congruence|]. split.
      + intros C. rewrite A2 by (intros K; apply C; now right). exact Po.
      + intros [C|C]; [contradiction|]. destruct (A3 C) as [B1 B2]. split; [exact B1|]. intros k v. rewrite B2. unfold holds. now rewrite Po.
  Qed.
End Saved.

Lemma pop_update_members p po d w w' : nth_error (w_pops w) p = Some po -> pop_update p d w = (Ok tt, w') ->
  forall i, member w' p i <-> member w p i \/ In i (df_index d).
Proof.
  intros Hp H. unfold pop_update in H. apply bindM_ok in H as (po1 & w1 & E & H). apply deref_ok in E as (E & ->). rewrite Hp in E. injection E as <-.
  destruct (negb _); [discriminate|]. destruct (negb _); [discriminate|].
  set (dd := mkDf (df_cols d) (keep_last (df_rows d))) in *. apply bindM_ok in H as (u & w1 & E & H). unfold put_pop, modify in E. injection E as _ <-.
  set (po' := mkPop _ _ _ _) in H. set (w1 := set_pops _ w) in H.
  assert (Hp1 : nth_error (w_pops w1) p = Some po') by (cbn; rewrite nth_error_set_nth, Nat.eqb_refl, Hp; reflexivity).
  assert (Pw : w_pops w' = w_pops w1).
  { clear - H. clearbody w1 dd. revert w1 H. induction (df_cols d) as [|n l IH]; intros w1 H; cbn [foreach] in H; [now injection H as ->|].
    apply bindM_ok in H as ([] & w2 & H1 & H). rewrite (IH _ H).
    apply bindM_ok in H1 as (s & v1 & E1 & H1). apply lift_ok in E1 as (_ & ->).
    apply bindM_ok in H1 as (a & v1 & E1 & H1). unfold get_attribute in E1. apply bindM_ok in E1 as (po1 & v2 & E2 & E1). apply deref_ok in E2 as (E2 & ->). apply lift_ok in E1 as (E1 & ->).
    exact (proj1 (update_attr_ok _ _ _ _ H1)). }
  intros i. unfold member. rewrite Pw, Hp1, Hp. split.
  - intros (y & [= <-] & K). cbn [p_ids po'] in K. apply index_union_In in K as [K|K]; [left; now exists po|].
    apply index_difference_In in K as [K _]. right. apply (keep_last_In (df_rows d)) in K. exact K.
  - intros K. exists po'. split; [reflexivity|]. cbn [p_ids po']. apply index_union_In.
    destruct (in_dec key_dec i (p_ids po)) as [I|I]; [now left|]. right. apply index_difference_In. split; [|exact I].
    destruct K as [(y & [= <-] & K)|K]; [contradiction|]. change (In i (map fst (keep_last (df_rows d)))). apply keep_last_In. exact K.
Qed.

Lemma pop_update_values p po name x d w w' :
  (forall n m a, dget n (p_attrs po) = Some a -> dget m (p_attrs po) = Some a -> n = m) -> dget name (p_attrs po) = Some x ->
  nth_error (w_pops w) p = Some po -> single_valued w x -> pop_update p d w = (Ok tt, w') ->
  NoDup (df_cols d) /\ In name (df_cols d) /\ single_valued w' x /\
  forall k v, holds w' x k v <-> last_value k (map (fun row => (fst row, cell (df_cols d) (snd row) name)) (df_rows d)) = Some v \/ ~ In k (df_index d) /\ holds w x k v.
Proof.
  intros Inj Hx Hp Sv H. unfold pop_update in H. apply bindM_ok in H as (po1 & w1 & E & H). apply deref_ok in E as (E & ->). rewrite Hp in E. injection E as <-.
  destruct (same_names (dkeys (p_attrs po)) (df_cols d)) eqn:En; [|discriminate]. destruct (nodupb (df_cols d)) eqn:Ed; [|discriminate]. cbn [negb] in H.
  apply nodupb_NoDup in Ed. assert (Hin : In name (df_cols d)) by (apply (proj1 (same_names_iff _ _) En); eapply dget_Some_key; eauto).
  set (dd := mkDf (df_cols d) (keep_last (df_rows d))) in *. apply bindM_ok in H as (u & w1 & E & H). unfold put_pop, modify in E. injection E as _ <-.
  set (po' := mkPop _ _ _ _) in H. set (w1 := set_pops _ w) in H.
  assert (Hp1 : nth_error (w_pops w1) p = Some po') by (cbn; rewrite nth_error_set_nth, Nat.eqb_refl, Hp; reflexivity).
  destruct (foreach_saved p po' name x Inj Hx dd (keep_last_NoDup (df_rows d)) (df_cols d) w1 w' Ed Hp1 Sv H) as (_ & _ & A3). destruct (A3 Hin) as [S' V].
  split; [exact Ed|]. split; [exact Hin|]. split; [exact S'|]. intros k v. rewrite V. cbn [df_cols df_rows dd].
  rewrite (keep_last_value (fun cells => cell (df_cols d) cells name)). unfold df_index at 1. cbn [df_rows dd]. rewrite keep_last_In. reflexivity.
Qed.

(** The operation. *)
Lemma saved_data p idf (copy : dict string string) d w d' l w' : run_op (OpPopUpdate p idf copy) d w = (Ok (d', l), w') ->
  d' = d /\ l = [] /\
  pop_update p (mkDf (map fst copy) (map (fun row : val * list val => (cell (df_cols d) (snd row) idf,
                 map (fun af : string * string => cell (df_cols d) (snd row) (snd af)) copy)) (df_rows d))) w = (Ok tt, w').
Proof.
  cbn [run_op]. intros H. unfold side_effect in H. apply bindM_ok in H as ([] & w1 & E & H). injection H as <- <- ->. split; [reflexivity|]. split; [reflexivity|].
  apply bindM_ok in E as (cols & v1 & E1 & E). apply lift_ok in E1 as (E1 & ->). apply bindM_ok in E as (ids & v1 & E2 & E). apply lift_ok in E2 as (E2 & ->).
  apply get_col_cells in E2. subst ids.
  assert (Ec : cols = map (fun af : string * string => map (fun row => (fst row, cell (df_cols d) (snd row) (snd af))) (df_rows d)) copy).
  { clear - E1. revert cols E1. induction copy as [|[n f] copy IH]; intros cols E1; cbn [mapr] in E1; [injection E1 as <-; reflexivity|].
    apply bind_ok in E1 as (c & Ec & E1). apply bind_ok in E1 as (cs & Ecs & E1). injection E1 as <-. cbn [map snd]. apply get_col_cells in Ec. subst c. f_equal. now apply IH. }
  rewrite <- E. f_equal. f_equal. subst cols. rewrite !map_map. cbn [snd]. symmetry.
  rewrite (map_ext (fun x : string * string => map snd (map (fun row : val * list val => (fst row, cell (df_cols d) (snd row) (snd x))) (df_rows d)))
     (fun x : string * string => map (fun row : val * list val => cell (df_cols d) (snd row) (snd x)) (df_rows d)))
    by (intros af; now rewrite map_map).
  apply (rows_of_map (fun row : val * list val => cell (df_cols d) (snd row) idf)).
Qed.

Lemma saved_members p po idf (copy : dict string string) d w d' l w' : nth_error (w_pops w) p = Some po -> run_op (OpPopUpdate p idf copy) d w = (Ok (d', l), w') ->
  d' = d /\ forall i, member w' p i <-> member w p i \/ In i (column_of d idf).
Proof.
  intros Hp H. destruct (saved_data _ _ _ _ _ _ _ _ H) as (-> & _ & U). split; [reflexivity|]. intros i. rewrite (pop_update_members _ _ _ _ _ Hp U).
  unfold df_index, column_of. cbn [df_rows]. rewrite map_map. reflexivity.
Qed.

Lemma saved_values p po name x field idf (copy : dict string string) d w d' l w' :
  (forall n m a, dget n (p_attrs po) = Some a -> dget m (p_attrs po) = Some a -> n = m) -> dget name (p_attrs po) = Some x ->
  nth_error (w_pops w) p = Some po -> single_valued w x -> dget name copy = Some field -> run_op (OpPopUpdate p idf copy) d w = (Ok (d', l), w') ->
  d' = d /\ single_valued w' x /\
  forall k v, holds w' x k v <-> last_value k (listed d idf field) = Some v \/ ~ In k (map fst (listed d idf field)) /\ holds w x k v.
Proof.
  intros Inj Hx Hp Sv Hc H. destruct (saved_data _ _ _ _ _ _ _ _ H) as (-> & _ & U). split; [reflexivity|].
  destruct (pop_update_values _ _ _ _ _ _ _ Inj Hx Hp Sv U) as (Nd & _ & S' & V). split; [exact S'|]. intros k v. rewrite V. cbn [df_cols df_rows] in *.
  assert (El : map (fun row => (fst row, cell (map fst copy) (snd row) name)) (map (fun row : val * list val => (cell (df_cols d) (snd row) idf,
      map (fun af : string * string => cell (df_cols d) (snd row) (snd af)) copy)) (df_rows d)) = listed d idf field).
  { unfold listed. rewrite map_map. apply map_ext. intros row. cbn [fst snd]. f_equal.
    apply (cell_copy copy (fun f => cell (df_cols d) (snd row) f) name field Nd Hc). }
  rewrite El. replace (df_index _) with (map fst (listed d idf field)); [reflexivity|].
  unfold df_index, listed. cbn [df_rows]. now rewrite !map_map.
Qed.
