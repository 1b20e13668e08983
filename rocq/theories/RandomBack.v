(** Which random number decides the return of a member to its default state. *)
From Coq Require Import Qround Qabs.
From Verif Require Import Base BaseFacts Rng RngFacts Utils UtilsFacts Relationship SpecRelationship RelationshipFacts Frame Gens GensProps
  Clock SpecClock Attribute AttributeFacts World Story Ops OpsFacts Fs Circus SpecStory StoryFacts StoryExec StoryProps SpecOps OpsProps OpsColumns StoryMore
  StoryStates StoryBack StoryWorld StoryWorld2 SpecRandom RandomFacts RandomGens.
From Coq Require Import Lqa.
Local Open Scope nat_scope.

Lemma away_eq s ids : NoDup (st_ids s) ->
  away s ids = filter (fun i => match state_of s i with
                                | Some st => negb (keqb st "default"%string)
                                | None => false
                                end) ids.
Proof.
  intros Nd. apply filter_ext. intros i. unfold state_of. apply eq_true_iff_eq. rewrite existsb_exists. split.
  - intros ([j [st r]] & Hi & E). cbn [fst snd] in E. apply andb_true_iff in E as [E1 E2].
    destruct (keqb_spec j i) as [->|]; [|discriminate]. apply In_dget in Hi; [|exact Nd]. rewrite Hi. exact E2.
  - destruct (dget i (st_timer s)) as [[st r]|] eqn:E; [|discriminate]. cbn [option_map fst]. intros H.
    exists (i, (st, r)). split; [now apply dget_In|]. cbn [fst snd]. now rewrite keqb_refl, H.
Qed.

Lemma uniform_stream j w n vs w' st : nth_error (w_gens w) j = Some (GNumpy NpUniform st None) ->
  generate j (Z.of_nat n) w = (Ok vs, w') ->
  vs = map vq (map (coming st) (seq 0 n)) /\ w_stories w' = w_stories w /\
  exists st', nth_error (w_gens w') j = Some (GNumpy NpUniform st' None) /\ drawn n st st'.
Proof.
  intros Hj H. unfold generate in H. mstep H. injection E as <- <-. mstep H.
  apply lift_ok in E. destruct E as [E ->]. destruct x as [vs0 gens']. mstep H. injection E0 as _ <-.
  injection H as <- <-. unfold gen_generate in E. cbn [heap_generate] in E. rewrite Hj in E.
  cbn [gen_step] in E. apply bind_ok in E as ([vs1 g'] & E & E1). injection E1 as <- <-.
  apply bind_ok in E as ([vs2 st'] & E & E1). injection E1 as <- <-.
  unfold np_generate in E. destruct (Z.of_nat n <? 0)%Z; [discriminate|]. rewrite Nat2Z.id, draws_uniform in E.
  injection E as <- <-. split; [reflexivity|]. split; [reflexivity|].
  cbn [w_gens set_gens]. eexists. split; [|reflexivity].
  rewrite nth_error_set_nth, Nat.eqb_refl, Hj. reflexivity.
Qed.

Lemma nth_error_combine {A B} (l : list A) (m : list B) k x y :
  nth_error l k = Some x -> nth_error m k = Some y -> nth_error (combine l m) k = Some (x, y).
Proof. revert m k. induction l as [|a l IH]; intros [|b m] [|k]; cbn; try discriminate; [congruence|apply IH]. Qed.

Lemma back_exact a judge d w w' s jst : back_to_default a judge d w = (Ok tt, w') ->
  nth_error (w_stories w) a = Some s -> nth_error (w_gens w) judge = Some (GNumpy NpUniform jst None) ->
  In "default"%string (st_states s) -> NoDup (df_index d) -> NoDup (st_ids s) ->
  exists s' moved, nth_error (w_stories w') a = Some s' /\ static s s' /\
    (forall i, state_of s' i = if mem i moved then option_map (fun _ => "default"%string) (state_of s i) else state_of s i) /\
    (forall i, In i moved -> In i (away s (df_index d))) /\
    (forall k i st, nth_error (away s (df_index d)) k = Some i -> state_of s i = Some st -> In st (st_states s) ->
       exists q, declared s BackProb i st = Some q /\ (In i moved <-> (coming jst k < q)%Q)) /\
    (exists n jst', nth_error (w_gens w') judge = Some (GNumpy NpUniform jst' None) /\ drawn n jst jst' /\
       n <= length (away s (df_index d))).
Proof.
  intros H Hs Hj Hd Ndx Nds. rewrite (away_eq s (df_index d) Nds). unfold back_to_default in H. mstep H. apply deref_ok in E. destruct E as [E ->].
  assert (x = s) by congruence. subst x. destruct (known s (df_index d)) eqn:K; [|discriminate]. cbn [negb] in H.
  set (nd := filter _ (df_index d)) in H |- *.
  assert (Nnd : NoDup nd) by now apply NoDup_filter'.
  destruct nd as [|n0 nds] eqn:End.
  { injection H as <-. exists s, []. split; [exact Hs|]. split; [apply static_refl|]. split; [reflexivity|].
    split; [intros ? []|]. split; [intros [|k] i st; discriminate|]. exists 0, jst. split; [exact Hj|]. split; [apply drawn_0|lia]. }
  rewrite <- End in *. clear End. mstep H. apply lift_ok in E0. destruct E0 as [Hp ->]. rename x into back.
  pose proof (get_param_keys _ _ _ _ Hp) as Hk.
  assert (Hdec : forall i q st, In (i, q) back -> state_of s i = Some st -> In st (st_states s) ->
            declared s BackProb i st = Some q) by (intros; eapply param_current; eauto).
  assert (Nb : NoDup (map fst back)) by now rewrite Hk.
  assert (Lb : length back = length nd) by (rewrite <- Hk; now rewrite map_length).
  mstep H. rename x into cond.
  set (moved := map fst (mask_rows cond back)) in H.
  assert (C : w_stories w0 = w_stories w /\
     (forall k i q, nth_error back k = Some (i, q) -> (In i moved <-> (coming jst k < q)%Q)) /\
     (forall i, In i moved -> In i (map fst back)) /\
     exists n jst', nth_error (w_gens w0) judge = Some (GNumpy NpUniform jst' None) /\ drawn n jst jst' /\ n <= length nd).
  { unfold moved. clear H. destruct (forallb (fun p => Qeq_bool (snd p) 0) back) eqn:F0.
    - injection E0 as <- <-. rewrite mask_const_false. split; [reflexivity|]. split.
      + intros k i q Hb. split; [intros []|]. intros Hlt. apply nth_error_In in Hb. rewrite forallb_forall in F0.
        specialize (F0 _ Hb). cbn in F0. apply Qeq_bool_iff in F0. pose proof (coming_range jst k). lra.
      + split; [intros ? []|]. exists 0, jst. split; [exact Hj|]. split; [apply drawn_0|lia].
    - destruct (forallb (fun p => Qeq_bool (snd p) 1) back) eqn:F1.
      + injection E0 as <- <-. rewrite mask_const_true. split; [reflexivity|]. rewrite forallb_forall in F1. split.
        * intros k i q Hb. split.
          -- intros _. apply nth_error_In in Hb. specialize (F1 _ Hb). cbn in F1. apply Qeq_bool_iff in F1.
             pose proof (coming_range jst k). lra.
          -- intros _. apply nth_error_In in Hb. apply in_map_iff. exists (i, q). auto.
        * split; [auto|]. exists 0, jst. split; [exact Hj|]. split; [apply drawn_0|lia].
      + mstep E0. apply (uniform_stream _ _ _ _ _ _ Hj) in E1. destruct E1 as (-> & Hw & jst' & Hj' & Hdr).
        mstep E0. apply lift_ok in E1. destruct E1 as [E1 ->]. apply mapr_as_Q in E1. injection E0 as <- <-.
        assert (Lx : length back = length x).
        { assert (L : length (map (coming jst) (seq 0 (length back))) = length x) by (clear - E1; induction E1; cbn; auto).
          now rewrite map_length, seq_length in L. }
        split; [exact Hw|]. split; [|split].
        * intros k i q Hb. rewrite mask_lt_In by exact Lx.
          assert (Hkl : k < length back) by (apply nth_error_Some; congruence).
          destruct (nth_error x k) as [u|] eqn:Ex; [|apply nth_error_None in Ex; lia].
          assert (Hu : nth_error (map (coming jst) (seq 0 (length back))) k = Some (coming jst k)).
          { rewrite nth_error_map, (nth_error_nth' _ 0), seq_nth by (rewrite ?seq_length; lia). reflexivity. }
          assert (Eu : (u == coming jst k)%Q) by exact (Forall2_at _ _ _ _ _ _ E1 Hu Ex). split.
          -- intros (q' & u' & Hin & Hlt). apply In_nth_error in Hin as [k' Hk'].
             assert (A : nth_error back k' = Some (i, q') /\ nth_error x k' = Some u').
             { clear -Hk'. revert x k' Hk'. induction back as [|b l IH]; intros [|y x] [|k']; cbn; try discriminate; [intros [= -> ->]; auto|apply IH]. }
             destruct A as [A1 A2].
             assert (k' = k).
             { eapply (NoDup_nth_error (map fst back)); [exact Nb|rewrite map_length; apply nth_error_Some; congruence|].
               now rewrite !nth_error_map, A1, Hb. }
             subst k'. rewrite Hb in A1. injection A1 as <-. rewrite Ex in A2. injection A2 as <-.
             apply Qltb_iff in Hlt. lra.
          -- intros Hlt. exists q, u. split; [eapply nth_error_In, nth_error_combine; eauto|]. apply Qltb_iff. lra.
        * intros i Hi. rewrite mask_lt_In in Hi by exact Lx. destruct Hi as (q & u & Hi & _).
          apply in_combine_l in Hi. apply in_map_iff. exists (i, q). auto.
        * exists (length back), jst'. split; [exact Hj'|]. split; [exact Hdr|lia]. }
  destruct C as (Hw & Hmv & Hsub & Hgen). apply story_transit_ok in H. destruct H as (s0 & s' & Hs0 & Ht & ->).
  rewrite Hw, Hs in Hs0. injection Hs0 as <-. destruct (transit_states _ _ _ _ Ht) as (Hst & _ & St & _).
  exists s', moved. split; [cbn [w_stories set_stories]; rewrite Hw; eapply nth_put_same; eauto|]. split; [exact St|].
  split; [|split; [|split]].
  - intros i. rewrite Hst, dget_last_default. destruct (state_of s i); destruct (mem i moved); reflexivity.
  - intros i Hi. rewrite <- Hk. auto.
  - intros k i st Hi Hsi Hin. rewrite <- Hk, nth_error_map in Hi.
    destruct (nth_error back k) as [[j q]|] eqn:Eb; [|discriminate]. cbn in Hi. injection Hi as ->.
    exists q. split; [eapply Hdec; eauto; eapply nth_error_In; eauto|]. eauto.
  - exact Hgen.
Qed.

(** ** One execution *)
Lemma away_states s1 s ids : NoDup (st_ids s1) -> NoDup (st_ids s) -> (forall i, state_of s1 i = state_of s i) -> away s1 ids = away s ids.
Proof. intros N1 N2 H. rewrite !away_eq by assumption. apply filter_ext. intros i. now rewrite H. Qed.

Lemma exec_back_exact a w l w' s ops judge : execute a w = (Ok l, w') -> nth_error (w_stories w) a = Some s ->
  NoDup (st_ids s) -> st_ops s = ops ++ [OpBack a judge] ->
  (forall o, In o ops -> changes_states a o = false) -> uniform_generator w judge ->
  In "default"%string (st_states s) -> due_members s <> [] ->
  exists d1 l1 w1 jst s' moved,
    run_chain ops (story_rows (st_field s) (due_members s)) (at_start a w) = (Ok (d1, l1), w1) /\
    nth_error (w_gens w1) judge = Some (GNumpy NpUniform jst None) /\
    nth_error (w_stories w') a = Some s' /\ static s s' /\
    (forall i, state_of s' i = if mem i moved then option_map (fun _ => "default"%string) (state_of s i) else state_of s i) /\
    (forall i, In i moved -> In i (away s (df_index d1))) /\
    NoDup (df_index d1) /\
    (forall k i st, nth_error (away s (df_index d1)) k = Some i -> state_of s i = Some st -> In st (st_states s) ->
       exists q, declared s BackProb i st = Some q /\ (In i moved <-> (coming jst k < q)%Q)).
Proof.
  intros H Hs Nd Ho Hn Hu Hdef Hdue. rewrite (at_start_unforced _ _ _ Hs).
  apply execute_ok in H. destruct H as (s0 & H0 & H). rewrite Hs in H0. injection H0 as <-.
  destruct H as [(E & _)|(_ & dd & w2 & w3 & Hc & Hm & Ht)]; [tauto|].
  change (init_story_data (st_field s) (due_members s)) with (story_rows (st_field s) (due_members s)) in Hc.
  rewrite Ho in Hc. set (d0 := story_rows (st_field s) (due_members s)) in *.
  pose proof (chain_app ops [OpBack a judge] d0 (unforced a s w)) as Ha.
  destruct (run_chain ops d0 (unforced a s w)) as [[[d1 l1]|e] w1] eqn:E1.
  2:{ rewrite Ha in Hc. discriminate. }
  destruct (run_chain [OpBack a judge] d1 w1) as [[[d2 l2]|e] w1'] eqn:E2.
  2:{ rewrite Ha in Hc. discriminate. }
  destruct Ha as (l3 & Ha & _). rewrite Ha in Hc. injection Hc as -> -> ->.
  assert (Hs1 : nth_error (w_stories (unforced a s w)) a = Some (with_forced s [])).
  { unfold unforced. cbn [w_stories set_stories]. eapply nth_put_same; eauto. }
  pose proof (chain_rel (chain_states a ops d0 (unforced a s w) Hn) _ _ E1) as [_ Hst].
  destruct (Hst _ _ Hs1) as (s1 & Es1 & St1 & T1). specialize (T1 eq_refl).
  assert (Hu1 : uniform_generator w1 judge).
  { apply uniform_iff. pose proof (chain_uniform judge ops d0 (unforced a s w)) as Hk. unfold uniform_kept in Hk.
    rewrite E1 in Hk. apply Hk. apply uniform_iff in Hu. exact Hu. }
  destruct Hu1 as [jst Hj].
  assert (Hb : back_to_default a judge d1 w1 = (Ok tt, w2)).
  { unfold run_chain in E2. cbn [run_list] in E2. mstep E2. destruct x as [d3 l4]. cbn [run_op] in E.
    unfold side_effect in E. mstep E. destruct x. injection E as <- _ <-. mstep E2. apply lift_ok in E. destruct E as [_ ->].
    injection E2 as _ _ <-. exact E0. }
  assert (S1 : st_states s1 = st_states s) by (destruct St1 as (_&_&_&_&_&E&_); exact E).
  assert (S2 : st_params s1 = st_params s) by (destruct St1 as (_&_&_&_&_&_&E&_); exact E).
  assert (T0 : forall i, state_of s1 i = state_of s i) by (intros i; rewrite T1; reflexivity).
  assert (Nd1 : NoDup (st_ids s1)) by (eapply static_nodup; [exact St1|exact Nd]).
  assert (I0 : NoDup (df_index d1)).
  { pose proof (run_op_index (OpChain ops) d0 (unforced a s w) d1 l1 w1 E1) as Hi.
    unfold d0 in Hi. rewrite story_rows_index in Hi. apply Hi. now apply NoDup_due. }
  destruct (back_exact a judge d1 w1 w2 s1 jst Hb Es1 Hj ltac:(now rewrite S1) I0 Nd1) as (s2 & moved & Es2 & St2 & T2 & Hin & Hp & _).
  assert (Hm' : exists s3, nth_error (w_stories w3) a = Some s3 /\ static s2 s3 /\ forall i, state_of s3 i = state_of s2 i).
  { destruct (st_auto s); [eapply reset_states; eauto|eapply tick_states; eauto]. }
  destruct Hm' as (s3 & Es3 & St3 & T3). destruct (tick_states _ _ _ _ _ Ht Es3) as (s4 & Es4 & St4 & T4).
  rewrite (away_states s1 s _ Nd1 Nd T0) in Hin, Hp.
  exists d1, l1, w1, jst, s4, moved. split; [reflexivity|]. split; [exact Hj|].
  split; [exact Es4|]. split.
  { eapply static_trans; [apply (static_forced s [])|]. eapply static_trans; [exact St1|].
    eapply static_trans; [exact St2|]. eapply static_trans; eauto. }
  split; [intros i; now rewrite T4, T3, T2, T0|]. split; [exact Hin|]. split; [exact I0|].
  intros k i st Hi Hst' Hstates. rewrite <- T0 in Hst'. rewrite <- S1 in Hstates.
  destruct (Hp k i st Hi Hst' Hstates) as (q & Hq & H1). exists q. split; [|exact H1].
  unfold declared in *. now rewrite <- S2.
Qed.

Lemma w_back_exact a w l w' s ops judge : execute a w = (Ok l, w') -> distinct_members w -> sound_states w a ->
  nth_error (w_stories w) a = Some s -> st_ops s = ops ++ [OpBack a judge] ->
  (forall o, In o ops -> changes_states a o = false) -> uniform_generator w judge -> due_members s <> [] ->
  exists d1 l1 w1 jst,
    run_chain ops (story_rows (st_field s) (due_members s)) (at_start a w) = (Ok (d1, l1), w1) /\
    nth_error (w_gens w1) judge = Some (GNumpy NpUniform jst None) /\
    (forall i st, ~ In i (away s (df_index d1)) -> (in_state w' a i st <-> in_state w a i st)) /\
    (forall k i st, nth_error (away s (df_index d1)) k = Some i -> in_state w a i st ->
       exists q, back_probability_in s i st q /\
         ((coming jst k < q)%Q -> in_state w' a i "default"%string) /\
         (~ (coming jst k < q)%Q -> in_state w' a i st)).
Proof.
  intros H D Hso Hs Hops Hch Hu Hne. pose proof (D _ _ Hs) as Nd. change (map fst (st_timer s)) with (st_ids s) in Nd.
  destruct (Hso _ Hs) as [Hdef Hdecl].
  destruct (exec_back_exact _ _ _ _ _ _ _ H Hs Nd Hops Hch Hu Hdef Hne) as
    (d1 & l1 & w1 & jst & s' & moved & Hrun & Hj & Hs' & St & Hst & Hmv & _ & Hp).
  assert (Nd' : NoDup (st_ids s')) by (eapply static_nodup; eauto).
  assert (K : forall i st, in_state w' a i st <-> (if mem i moved then option_map (fun _ => "default"%string) (state_of s i) else state_of s i) = Some st).
  { intros i st. now rewrite (in_state_iff _ _ _ _ s' Hs' Nd'), Hst. }
  exists d1, l1, w1, jst. split; [exact Hrun|]. split; [exact Hj|]. split.
  - intros i st Hn. rewrite K, (in_state_iff _ _ _ _ s Hs Nd). destruct (mem i moved) eqn:Em; [|reflexivity].
    apply mem_In in Em. exfalso. auto.
  - intros k i st Hi Hst0.
    assert (Hin : In st (st_states s)).
    { destruct Hst0 as (s2 & r & H2 & Hii). assert (s2 = s) by congruence. subst. eauto. }
    apply (in_state_iff _ _ _ _ s Hs Nd) in Hst0.
    destruct (Hp k i st Hi Hst0 Hin) as (q & Hq & Hb). apply declared_back in Hq. exists q. split; [exact Hq|]. split.
    + intros Hlt. apply K. apply Hb, mem_In in Hlt. now rewrite Hlt, Hst0.
    + intros Hn. apply K. destruct (mem i moved) eqn:Em; [|exact Hst0]. apply mem_In, Hb in Em. contradiction.
Qed.
