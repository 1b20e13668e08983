(** The return to the default state after an execution. *)
From Verif Require Import Base BaseFacts Rng RngFacts Utils UtilsFacts Relationship RelationshipFacts Frame Gens GensProps
  Clock SpecClock ClockProps Attribute AttributeFacts World Story Ops OpsFacts Fs Circus SpecStory StoryFacts StoryExec
  StoryProps SpecOps OpsProps OpsColumns StoryMore StoryStates.
From Coq Require Import Lqa.

(** ** A uniform generator stays one *)
Definition is_uniform (g : gen) : Prop := exists state, g = GNumpy NpUniform state None.
Definition uniform_at (j : nat) (h : list gen) : Prop := exists g, nth_error h j = Some g /\ is_uniform g.

Lemma heap_generate_uniform fuel j : forall h i size vs h', uniform_at j h ->
  heap_generate fuel h i size = Ok (vs, h') -> uniform_at j h'.
Proof.
  induction fuel as [|fuel IH]; intros h i size vs h' Hh E; cbn [heap_generate] in E; [discriminate|].
  destruct (nth_error h i) as [g|] eqn:Hi; [|discriminate].
  assert (D : forall g0, g0 = g -> (let! (vs0, g') := gen_step g0 size in Ok (vs0, set_nth i g' h)) = Ok (vs, h') ->
              uniform_at j h').
  { intros g0 -> E0. apply bind_ok in E0 as ([x g'] & E0 & E1). injection E1 as <- <-.
    destruct Hh as (gj & Hj & Hu). unfold uniform_at. rewrite nth_error_set_nth.
    destruct (Nat.eqb_spec i j) as [Ej|N]; [|eauto]. subst j. rewrite Hj. exists g'. split; [reflexivity|].
    assert (gj = g) by congruence. subst gj. destruct Hu as [st ->]. cbn [gen_step] in E0.
    apply bind_ok in E0 as ([y st'] & _ & E0). injection E0 as <- <-. now exists st'. }
  destruct g; try (now apply (D _ eq_refl E)).
  - destruct (parent <? i); [|discriminate]. apply bind_ok in E as ([s h1] & E1 & E).
    apply bind_ok in E as (x & _ & E). injection E as <- <-. eauto.
  - destruct (_ && _); [|discriminate]. apply bind_ok in E as ([s h1] & E1 & E).
    apply bind_ok in E as (ns & _ & E). apply bind_ok in E as ([vss h2] & E2 & E).
    injection E as <- <-. eapply heap_calls_inv with (I := uniform_at j); [| |exact E2].
    + cbv beta. intros ha n x hb Ha Hb. exact (IH _ _ _ _ _ Ha Hb).
    + eauto.
Qed.

Lemma gens_step_uniform j h h' : gens_step h h' -> uniform_at j h -> uniform_at j h'.
Proof.
  intros H Hu. destruct H as [i n vs h' H|i n q vs h' H|d obs vs d' h' H].
  - eapply heap_generate_uniform; eauto.
  - unfold random_values in H. destruct q as [qs|]; [|eapply heap_generate_uniform; eauto].
    apply bind_ok in H as (ns & _ & H). apply bind_ok in H as ([vs' h1] & H1 & H).
    destruct (existsb _ ns); [discriminate|]. injection H as _ <-. eapply heap_generate_uniform; eauto.
  - destruct d; cbn [dgen_generate] in H.
    + now injection H as _ _ <-.
    + destruct (draws _ _ _). apply bind_ok in H as (ps & _ & H). now injection H as _ _ <-.
    + apply bind_ok in H as (ns & _ & H). apply bind_ok in H as ([vss h1] & H1 & H). injection H as _ _ <-.
      eapply heap_calls_inv with (I := uniform_at j); [| |exact H1]; [|exact Hu].
      cbv beta. intros ha n x hb Ha Hb. eapply heap_generate_uniform; eauto.
Qed.

Lemma uniform_iff w j : uniform_generator w j <-> uniform_at j (w_gens w).
Proof.
  split.
  - intros [st H]. exists (GNumpy NpUniform st None). split; [exact H|now exists st].
  - intros (g & H & st & ->). now exists st.
Qed.

Definition uniform_kept (j : nat) (w w' : world) : Prop := uniform_at j (w_gens w) -> uniform_at j (w_gens w').

Lemma uniform_same j w w' : w_gens w' = w_gens w -> uniform_kept j w w'.
Proof. intros E H. now rewrite E. Qed.

Lemma story_methods_gens :
  (forall a ids w, w_gens (snd (story_force a ids w)) = w_gens w) /\
  (forall a ids w, w_gens (snd (story_reset a ids w)) = w_gens w) /\
  (forall a ids st w, w_gens (snd (story_transit a ids st w)) = w_gens w).
Proof.
  split; [|split].
  - intros a ids w. unfold story_force, bindM, deref. destruct (nth_error (w_stories w) a) as [s|]; [|reflexivity].
    destruct (force_act_next s ids). reflexivity.
  - intros a ids w. unfold story_reset, bindM, deref, lift. destruct (nth_error (w_stories w) a) as [s|]; [|reflexivity].
    destruct (nth_error (w_tgens w) (st_tgen s)) as [g|]; [|reflexivity].
    destruct (reset_timers s g ids) as [[s' g']|e]; reflexivity.
  - intros a ids st w. unfold story_transit, bindM, deref, lift. destruct (nth_error (w_stories w) a) as [s|]; [|reflexivity].
    destruct (transit_to_state s ids st); reflexivity.
Qed.

Lemma chain_uniform j ops d : keeps (uniform_kept j) (run_chain ops d).
Proof.
  destruct story_methods_gens as (F1 & F2 & F3).
  apply (run_chain_keeps (uniform_kept j) (fun _ => True) (fun _ => True) (fun _ => True)); auto.
  all: try (intros; now apply uniform_same).
  - unfold uniform_kept. auto.
  - intros w g Hs Hu. cbn [w_gens set_gens]. eapply gens_step_uniform; eauto.
  - intros a ids _ w. apply uniform_same, F1.
  - intros a ids _ w. apply uniform_same, F2.
  - intros a ids st _ w. apply uniform_same, F3.
Qed.

(** ** Which stories change state *)
Lemma transits_changes a o : transits_story a o = changes_states a o.
Proof.
  induction o as [o Hb|ops IH] using op_ind'.
  - destruct o; cbn; reflexivity.
  - cbn. induction ops as [|o ops IHops]; [reflexivity|]. inversion IH; subst. cbn. f_equal; auto.
Qed.

Definition state_same (a : nat) (b : nat) (s s' : story) : Prop :=
  static s s' /\ (b = a -> forall i, state_of s' i = state_of s i).

Lemma chain_states a ops d w : (forall o, In o ops -> changes_states a o = false) ->
  stories_rel (state_same a) w (snd (run_chain ops d w)).
Proof.
  intros Hn.
  apply (sr_chain (state_same a) (fun _ => True) (fun _ => True) (fun b => b <> a)).
  - intros b s. split; [apply static_refl|auto].
  - intros b s1 s2 s3 [A1 A2] [B1 B2]. split; [eapply static_trans; eauto|]. intros E i. now rewrite B2, A2.
  - intros b s ids _. destruct (force_act_next s ids) as [res s'] eqn:E. cbn.
    destruct (force_spec _ _ _ _ E) as (S & T & _). split; auto.
  - intros b s g ids s' g' _ E. destruct (reset_spec _ _ _ _ _ E) as (S & _ & T & _). split; auto.
  - intros b s ids st s' Nb E. destruct (transit_spec _ _ _ _ E) as (_ & _ & S & _). split; [exact S|]. intros ->. congruence.
  - auto.
  - auto.
  - intros b o Ho Ht. rewrite transits_changes in Ht. intros ->. rewrite (Hn o Ho) in Ht. discriminate.
Qed.

(** ** Rows that survive *)
Lemma keeps_index o d w d' l w' : run_op o d w = (Ok (d', l), w') -> drops_rows o = false ->
  df_index d' = df_index d.
Proof.
  revert d w d' l w'. induction o as [o Hb|ops IH] using op_ind'; intros d w d' l w' H Hn.
  - destruct (only_side_effect o) eqn:Es.
    { destruct (side_effect_data _ _ _ _ _ _ Es H) as [-> _]. reflexivity. }
    assert (T : forall new, target_columns o new -> df_index d' = df_index d).
    { intros new Ht. destruct (target_output _ _ _ _ _ _ _ Ht H) as (out & _ & _ & Hm).
      apply merge_index_sub in Hm. apply Hm. destruct o; cbn in Hn |- *; try reflexivity; discriminate. }
    destruct o; try discriminate; cbn [target_columns] in T; try (eapply T; reflexivity).
    + apply logger_data in H. now destruct H as [-> _].
    + cbn [run_op] in H. apply bindM_ok in H. destruct H as (r & w1 & H1 & H). injection H as <- _ _.
      mstep H1. apply lift_ok in H1. destruct H1 as [H1 ->]. apply merge_index_sub in H1. now apply H1.
    + exfalso. eapply Hb. reflexivity.
  - cbn [run_op] in H. cbn [drops_rows] in Hn. revert d w H. generalize ([] : logs) as l0.
    induction ops as [|o ops IHo]; intros l0 d w H; cbn [run_list] in H.
    + now injection H as <- _ _.
    + inversion IH; subst. cbn [existsb] in Hn. apply orb_false_elim in Hn as [N1 N2].
      apply bindM_ok in H. destruct H as ([d1 s] & w1 & H0 & H).
      apply bindM_ok in H. destruct H as (m & w2 & Hm & H). apply lift_ok in Hm. destruct Hm as [Hm ->].
      rewrite (IHo H3 N2 _ _ _ H). eauto.
Qed.

Lemma chain_keeps_index ops d w d' l w' : run_chain ops d w = (Ok (d', l), w') ->
  (forall o, In o ops -> drops_rows o = false) -> df_index d' = df_index d.
Proof.
  intros H Hn. apply (keeps_index (OpChain ops) d w d' l w' H). cbn.
  destruct (existsb drops_rows ops) eqn:E; [|reflexivity]. apply existsb_exists in E as (o & Ho & E).
  rewrite (Hn o Ho) in E. discriminate.
Qed.

(** ** _MaybeBackToDefault *)
Lemma nth_error_combine_In {A B} (l : list A) (m : list B) k x y : nth_error l k = Some x -> nth_error m k = Some y ->
  In (x, y) (combine l m).
Proof.
  revert m k. induction l as [|a l IH]; intros [|b m] [|k] H1 H2; cbn in *; try discriminate.
  - left. congruence.
  - right. eauto.
Qed.

Lemma mask_In {A} (mask : list bool) (l : list A) x : In x (mask_rows mask l) -> In (true, x) (combine mask l).
Proof.
  unfold mask_rows. rewrite in_map_iff. intros ([b y] & <- & H). apply filter_In in H. destruct H as [H E].
  cbn in *. subst b. exact H.
Qed.

Lemma NoDup_filter' {A} (f : A -> bool) l : NoDup l -> NoDup (filter f l).
Proof. intros H. eapply sublist_NoDup; [apply sublist_filter|exact H]. Qed.

Lemma mask_const_false {A B} (l : list A) (m : list B) : mask_rows (map (fun _ => false) l) m = [].
Proof. unfold mask_rows. revert m. induction l as [|x l IH]; intros [|y m]; cbn; auto. Qed.
Lemma mask_const_true {A} (l : list A) : mask_rows (map (fun _ => true) l) l = l.
Proof. unfold mask_rows. induction l as [|x l IH]; cbn; [reflexivity|]. f_equal. apply IH. Qed.

Lemma mask_lt_In (l : list (val * Q)) us i : length l = length us ->
  In i (map fst (mask_rows (map (fun '(p, u) => Qltb u (snd p)) (combine l us)) l)) <->
  exists q u, In (i, q, u) (combine l us) /\ Qltb u q = true.
Proof.
  unfold mask_rows. revert us. induction l as [|[j q] l IH]; intros [|u us] L; cbn in L; try lia.
  - cbn. split; [intros []|intros (q & u & [] & _)].
  - cbn [combine map]. cbn [filter]. cbn [fst]. cbn [snd]. specialize (IH us ltac:(lia)).
    destruct (Qltb u q) eqn:E; cbn [map In fst snd].
    + rewrite IH. split.
      * intros [->|(q' & u' & Hi & Hl)]; [exists q, u; auto|exists q', u'; auto].
      * intros (q' & u' & [Hi|Hi] & Hl); [injection Hi as -> -> ->; auto|]. right. eauto.
    + rewrite IH. split.
      * intros (q' & u' & Hi & Hl); exists q', u'; auto.
      * intros (q' & u' & [Hi|Hi] & Hl); [injection Hi as -> -> ->; congruence|]. eauto.
Qed.

Lemma Qltb_iff a b : Qltb a b = true <-> (a < b)%Q.
Proof. unfold Qltb. rewrite negb_true_iff, <- not_true_iff_false, Qle_bool_iff. split; [apply Qnot_le_lt|intros; now apply Qlt_not_le]. Qed.

Lemma dget_last_default ids i :
  dget_last i (combine ids (map (fun _ => "default"%string) ids)) = if mem i ids then Some "default"%string else None.
Proof.
  pose proof (dget_last_combine ids (map (fun _ => "default"%string) ids) i ltac:(now rewrite map_length)) as H.
  destruct (mem i ids) eqn:E.
  - apply mem_In in E. apply H in E. destruct (dget_last _ _) as [x|] eqn:D; [|congruence].
    unfold dget_last in D. apply dget_In in D. apply in_rev in D. apply in_combine_r in D.
    apply in_map_iff in D. destruct D as (_ & <- & _). reflexivity.
  - apply mem_not_In in E. destruct (dget_last _ _); [|reflexivity]. exfalso. apply E, H. discriminate.
Qed.

Lemma uniform_values j w n vs w' : uniform_generator w j -> generate j (Z.of_nat n) w = (Ok vs, w') ->
  exists us, vs = map vq us /\ length us = n /\ Forall (fun u => 0 <= u /\ u < 1)%Q us /\
    w_stories w' = w_stories w.
Proof.
  intros (st & Hj) H. unfold generate in H. mstep H. injection E as <- <-. mstep H.
  apply lift_ok in E. destruct E as [E ->]. destruct x as [vs0 gens']. mstep H. injection E0 as _ <-.
  injection H as <- <-. unfold gen_generate in E. cbn [heap_generate] in E. rewrite Hj in E.
  cbn [gen_step] in E. apply bind_ok in E as ([vs1 g'] & E & E1). injection E1 as <- <-.
  apply bind_ok in E as ([vs2 st'] & E & E1). injection E1 as <- <-.
  unfold np_generate in E. destruct (Z.of_nat n <? 0)%Z; [discriminate|]. rewrite Nat2Z.id in E.
  destruct (draws uniform n st) as [us st2] eqn:D. injection E as <- _. exists us. split; [reflexivity|].
  split; [eapply draws_length; eauto|]. split; [|reflexivity].
  eapply draws_Forall; [|exact D]. intros r u r' Hur. eapply uniform_range; eauto.
Qed.

Lemma mapr_as_Q us qs : mapr as_Q (map vq us) = Ok qs -> Forall2 (fun u q => q == u)%Q us qs.
Proof.
  intros H. apply mapr_ok_Forall2 in H. remember (map vq us) as vs eqn:E. revert us E.
  induction H as [|v q vs qs Hq _ IH]; intros [|u us] E; try discriminate; constructor.
  - cbn in E. injection E as -> _. cbn in Hq. injection Hq as <-. apply Qred_correct.
  - cbn in E. injection E as _ ->. auto.
Qed.

Lemma back_ok a judge d w w' s : back_to_default a judge d w = (Ok tt, w') ->
  nth_error (w_stories w) a = Some s -> uniform_generator w judge -> In "default"%string (st_states s) ->
  exists s' moved, nth_error (w_stories w') a = Some s' /\ static s s' /\
    (forall i, state_of s' i = if mem i moved then option_map (fun _ => "default"%string) (state_of s i) else state_of s i) /\
    (forall i, In i moved -> In i (df_index d)) /\
    (forall i st, In i (df_index d) -> state_of s i = Some st -> In st (st_states s) -> st <> "default"%string ->
       exists q, declared s BackProb i st = Some q /\
         ((q <= 0)%Q -> ~ In i moved) /\ ((1 <= q)%Q -> In i moved)).
Proof.
  intros H Hs Hu Hd. unfold back_to_default in H. mstep H. apply deref_ok in E. destruct E as [E ->].
  assert (x = s) by congruence. subst x. destruct (known s (df_index d)) eqn:K; [|discriminate]. cbn [negb] in H.
  set (nd := filter _ (df_index d)) in H.
  assert (Hnd : forall i st, In i (df_index d) -> state_of s i = Some st -> st <> "default"%string -> In i nd).
  { intros i st Hi Hst Ns. apply filter_In. split; [exact Hi|]. rewrite Hst.
    destruct (keqb_spec st "default"%string); [contradiction|reflexivity]. }
  assert (Hnd' : forall i, In i nd -> In i (df_index d)) by (intros i Hi; apply filter_In in Hi; tauto).
  assert (Nnd : NoDup (df_index d) -> NoDup nd) by apply NoDup_filter'.
  destruct nd as [|n0 nds] eqn:End.
  { injection H as <-. exists s, []. split; [exact Hs|]. split; [apply static_refl|]. split; [reflexivity|].
    split; [intros ? []|]. intros i st Hi Hst _ Ns. destruct (Hnd i st Hi Hst Ns). }
  rewrite <- End in *. clear End. mstep H. apply lift_ok in E0. destruct E0 as [Hp ->]. rename x into back.
  pose proof (get_param_keys _ _ _ _ Hp) as Hk.
  assert (Hdec : forall i q st, In (i, q) back -> state_of s i = Some st -> In st (st_states s) ->
            declared s BackProb i st = Some q) by (intros; eapply param_current; eauto).
  mstep H. rename x into cond.
  set (moved := map fst (mask_rows cond back)) in H.
  assert (C : w_stories w0 = w_stories w /\
     (forall i, In i moved -> exists q, In (i, q) back /\ (0 < q)%Q) /\
     (forall i q, In (i, q) back -> (1 <= q)%Q -> In i moved)).
  { unfold moved. clear H. destruct (forallb (fun p => Qeq_bool (snd p) 0) back) eqn:F0.
    - injection E0 as <- <-. rewrite mask_const_false. split; [reflexivity|]. split; [intros ? []|].
      intros i q Hi Hq. rewrite forallb_forall in F0. specialize (F0 _ Hi). cbn in F0. apply Qeq_bool_iff in F0. lra.
    - destruct (forallb (fun p => Qeq_bool (snd p) 1) back) eqn:F1.
      + injection E0 as <- <-. rewrite mask_const_true. split; [reflexivity|]. rewrite forallb_forall in F1. split.
        * intros i Hi. apply in_map_iff in Hi. destruct Hi as ([j q] & <- & Hi). exists q. split; [exact Hi|].
          specialize (F1 _ Hi). cbn in F1. apply Qeq_bool_iff in F1. lra.
        * intros i q Hi _. apply in_map_iff. exists (i, q). auto.
      + mstep E0. apply (uniform_values _ _ _ _ _ Hu) in E1. destruct E1 as (us & -> & L & F & Hw).
        mstep E0. apply lift_ok in E1. destruct E1 as [E1 ->]. apply mapr_as_Q in E1. injection E0 as <- <-.
        assert (Lx : length back = length x). { rewrite <- L. clear - E1. induction E1; cbn; auto. }
        assert (Fx : Forall (fun u => 0 <= u /\ u < 1)%Q x).
        { clear - F E1. induction E1 as [|u q us x Eq _ IH]; [constructor|]. inversion F; subst. constructor; [|auto].
          destruct H1. split; lra. }
        rewrite Forall_forall in Fx. split; [exact Hw|]. split.
        * intros i Hi. rewrite mask_lt_In in Hi by exact Lx. destruct Hi as (q & u & Hi & Hl). exists q.
          split; [eapply in_combine_l; eauto|]. apply Qltb_iff in Hl. apply in_combine_r, Fx in Hi. lra.
        * intros i q Hi Hq. rewrite mask_lt_In by exact Lx.
          apply In_nth_error in Hi. destruct Hi as [k Hk'].
          destruct (nth_error x k) as [u|] eqn:Ex.
          2:{ apply nth_error_None in Ex. assert (k < length back) by (apply nth_error_Some; congruence). lia. }
          exists q, u. split; [eapply nth_error_combine_In; eauto|]. apply Qltb_iff. apply nth_error_In, Fx in Ex. lra. }
  destruct C as (Hw & Hmv & Hall). apply story_transit_ok in H. destruct H as (s0 & s' & Hs0 & Ht & ->).
  rewrite Hw, Hs in Hs0. injection Hs0 as <-. destruct (transit_states _ _ _ _ Ht) as (Hst & _ & St & _).
  exists s', moved. split; [cbn [w_stories set_stories]; rewrite Hw; eapply nth_put_same; eauto|]. split; [exact St|].
  split; [|split].
  - intros i. rewrite Hst, dget_last_default. destruct (state_of s i); destruct (mem i moved); reflexivity.
  - intros i Hi. destruct (Hmv i Hi) as (q & Hq & _). apply Hnd'. rewrite <- Hk. apply in_map_iff. exists (i, q). auto.
  - intros i st Hi Hsi Hin Ns. assert (In i nd) as Hn by eauto. rewrite <- Hk in Hn. apply in_map_iff in Hn.
    destruct Hn as ([j q] & Ej & Hq). cbn in Ej. subst j. exists q. split; [eauto|]. split.
    + intros Hle Hm. destruct (Hmv i Hm) as (q' & Hq' & Hpos).
      pose proof (Hdec _ _ _ Hq Hsi Hin). pose proof (Hdec _ _ _ Hq' Hsi Hin). assert (q' = q) by congruence. subst. lra.
    + intros Hge. eauto.
Qed.

(** ** One execution *)
Lemma tick_states a ids w w' s : story_tick a ids w = (Ok tt, w') -> nth_error (w_stories w) a = Some s ->
  exists s', nth_error (w_stories w') a = Some s' /\ static s s' /\ forall i, state_of s' i = state_of s i.
Proof.
  intros H Hs. apply story_tick_ok in H. destruct H as (s0 & s' & H0 & Ht & ->). assert (s0 = s) by congruence. subst s0.
  destruct (tick_spec _ _ _ Ht) as (St & _ & T & _). exists s'. split; [|auto].
  cbn [w_stories set_stories]. eapply nth_put_same; eauto.
Qed.
Lemma reset_states a ids w w' s : story_reset a ids w = (Ok tt, w') -> nth_error (w_stories w) a = Some s ->
  exists s', nth_error (w_stories w') a = Some s' /\ static s s' /\ forall i, state_of s' i = state_of s i.
Proof.
  intros H Hs. apply story_reset_ok in H. destruct H as (s0 & s' & g & g' & H0 & _ & Ht & ->). assert (s0 = s) by congruence. subst s0.
  destruct (reset_spec _ _ _ _ _ Ht) as (St & _ & T & _). exists s'. split; [|auto].
  cbn [w_stories set_stories set_tgens]. eapply nth_put_same; eauto.
Qed.

Lemma story_rows_index f ids : df_index (story_rows f ids) = ids.
Proof. unfold story_rows, df_index. cbn. rewrite map_map. apply map_id. Qed.

Lemma exec_back a w l w' s ops judge : execute a w = (Ok l, w') -> nth_error (w_stories w) a = Some s ->
  NoDup (st_ids s) -> st_ops s = ops ++ [OpBack a judge] ->
  (forall o, In o ops -> changes_states a o = false) -> uniform_generator w judge ->
  In "default"%string (st_states s) -> due_members s <> [] ->
  exists d1 l1 w1 s' moved,
    run_chain ops (story_rows (st_field s) (due_members s)) (at_start a w) = (Ok (d1, l1), w1) /\
    incl (df_index d1) (due_members s) /\
    nth_error (w_stories w') a = Some s' /\ static s s' /\
    (forall i, state_of s' i = if mem i moved then option_map (fun _ => "default"%string) (state_of s i) else state_of s i) /\
    (forall i, In i moved -> In i (df_index d1)) /\
    (forall i st, In i (df_index d1) -> state_of s i = Some st -> In st (st_states s) -> st <> "default"%string ->
       exists q, declared s BackProb i st = Some q /\
         ((q <= 0)%Q -> ~ In i moved) /\ ((1 <= q)%Q -> In i moved)).
Proof.
  intros H Hs Nd Ho Hn Hu Hdef Hdue. rewrite (at_start_unforced _ _ _ Hs).
  apply execute_ok in H. destruct H as (s0 & H0 & H). rewrite Hs in H0. injection H0 as <-.
  destruct H as [(E & _)|(_ & dd & w2 & w3 & Hc & Hm & Ht)]; [tauto|].
  change (init_story_data (st_field s) (due_members s)) with (story_rows (st_field s) (due_members s)) in Hc.
  rewrite Ho in Hc. set (d0 := story_rows (st_field s) (due_members s)) in *.
  pose proof (chain_app ops [OpBack a judge] d0 (unforced a s w)) as Ha.
  destruct (run_chain ops d0 (unforced a s w)) as [[[d1 l1]|e] w1] eqn:E1.
  2:{ rewrite Ha in Hc. discriminate. }
  destruct (run_chain [OpBack a judge] d1 w1) as [[[d2 l2]|e] w1'] eqn:E2.
  2:{ rewrite Ha in Hc. discriminate. }
  destruct Ha as (l3 & Ha & _). rewrite Ha in Hc. injection Hc as -> -> ->.
  assert (Hs1 : nth_error (w_stories (unforced a s w)) a = Some (with_forced s [])).
  { unfold unforced. cbn [w_stories set_stories]. eapply nth_put_same; eauto. }
  pose proof (chain_rel (chain_states a ops d0 (unforced a s w) Hn) _ _ E1) as [_ Hst].
  destruct (Hst _ _ Hs1) as (s1 & Es1 & St1 & T1). specialize (T1 eq_refl).
  assert (Hu1 : uniform_generator w1 judge).
  { apply uniform_iff. pose proof (chain_uniform judge ops d0 (unforced a s w)) as Hk. unfold uniform_kept in Hk.
    rewrite E1 in Hk. apply Hk. apply uniform_iff in Hu. exact Hu. }
  assert (Hb : back_to_default a judge d1 w1 = (Ok tt, w2)).
  { unfold run_chain in E2. cbn [run_list] in E2. mstep E2. destruct x as [d3 l4]. cbn [run_op] in E.
    unfold side_effect in E. mstep E. destruct x. injection E as <- _ <-. mstep E2. apply lift_ok in E. destruct E as [_ ->].
    injection E2 as _ _ <-. exact E0. }
  assert (S1 : st_states s1 = st_states s) by (destruct St1 as (_&_&_&_&_&E&_); exact E).
  assert (S2 : st_params s1 = st_params s) by (destruct St1 as (_&_&_&_&_&_&E&_); exact E).
  destruct (back_ok a judge d1 w1 w2 s1 Hb Es1 Hu1 ltac:(now rewrite S1)) as (s2 & moved & Es2 & St2 & T2 & Hin & Hp).
  assert (Hm' : exists s3, nth_error (w_stories w3) a = Some s3 /\ static s2 s3 /\ forall i, state_of s3 i = state_of s2 i).
  { destruct (st_auto s); [eapply reset_states; eauto|eapply tick_states; eauto]. }
  destruct Hm' as (s3 & Es3 & St3 & T3). destruct (tick_states _ _ _ _ _ Ht Es3) as (s4 & Es4 & St4 & T4).
  assert (T0 : forall i, state_of s1 i = state_of s i) by (intros i; rewrite T1; reflexivity).
  exists d1, l1, w1, s4, moved. split; [reflexivity|]. split.
  { pose proof (run_op_index (OpChain ops) d0 (unforced a s w) d1 l1 w1 E1) as Hi.
    unfold d0 in Hi. rewrite story_rows_index in Hi. apply Hi. now apply NoDup_due. }
  split; [exact Es4|]. split.
  { eapply static_trans; [apply (static_forced s [])|]. eapply static_trans; [exact St1|].
    eapply static_trans; [exact St2|]. eapply static_trans; eauto. }
  split; [intros i; now rewrite T4, T3, T2, T0|]. split; [exact Hin|].
  intros i st Hi Hst' Hstates Ns. rewrite <- T0 in Hst'. rewrite <- S1 in Hstates.
  destruct (Hp i st Hi Hst' Hstates Ns) as (q & Hq & H1). exists q. split; [|exact H1].
  unfold declared in *. now rewrite <- S2.
Qed.

Lemma exec_idle_states a w l w' s : execute a w = (Ok l, w') -> nth_error (w_stories w) a = Some s ->
  due_members s = [] -> exists s', nth_error (w_stories w') a = Some s' /\ static s s' /\ forall i, state_of s' i = state_of s i.
Proof.
  intros H Hs Hd. destruct (exec_nobody a w s Hs Hd) as (s' & E & St & T & _). rewrite E in H. injection H as _ <-.
  exists s'. split; [|auto]. cbn [w_stories set_stories]. eapply nth_put_same; eauto.
Qed.
