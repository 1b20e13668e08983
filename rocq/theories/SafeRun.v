(** Executions, histories and runs that do not raise. *)
From Verif Require CircusFacts.
From Verif Require Import Base BaseFacts Rng Utils UtilsFacts Relationship RelationshipFacts SpecRelationship RelationshipProps Frame Gens GensProps
  Clock SpecClock ClockProps Attribute SpecAttribute AttributeFacts World Story Ops OpsFacts Fs Helpers HelpersFacts Circus SpecStory StoryFacts StoryExec StoryProps SpecOps OpsProps
  OpsColumns OpsMore SpecWorld WorldProps SpecPopulation GensKept SpecLocal LocalFacts LocalOps LocalCalls CircusProps GeographyLog SpecCircus SpecSupply SupplyFacts
  SupplyProps SpecLedger LedgerProps SpecAct GeographyTotal SpecRecords RecordsGens RecordsProps SpecSafe SafeGens SafeFacts SafeOps.

(** ** What the calls on stories leave alone *)
Lemma in_states_put a s s' w w1 : in_states w -> nth_error (w_stories w) a = Some s -> st_states s' = st_states s ->
  (forall i st r, In (i, (st, r)) (st_timer s') -> exists r', In (i, (st, r')) (st_timer s)) ->
  w_stories w1 = set_nth a s' (w_stories w) -> in_states w1.
Proof.
  intros I Hs E T Ew b sb Hb i st r Hin. rewrite Ew, nth_error_set_nth in Hb. destruct (Nat.eqb_spec a b) as [<-|_].
  - rewrite Hs in Hb. injection Hb as <-. destruct (T _ _ _ Hin) as [r' Hin']. rewrite E. eapply I; eauto.
  - eapply I; eauto.
Qed.
Lemma force_timer s ids q s' : force_act_next s ids = (q, s') -> st_states s' = st_states s /\
  forall i st r, In (i, (st, r)) (st_timer s') -> exists r', In (i, (st, r')) (st_timer s).
Proof.
  unfold force_act_next. intros H. destruct ids as [|x xs]; [injection H as _ <-; eauto|]. destruct (negb _); injection H as _ <-; [cbn; eauto|].
  split; [reflexivity|]. cbn [with_timer with_forced st_timer]. intros i st r Hin. apply in_map_iff in Hin as ([j [st' r']] & [= <- <- _] & Hin). eauto.
Qed.
Lemma reset_timer s g ids s' g' : reset_timers s g ids = Ok (s', g') -> st_states s' = st_states s /\
  forall i st r, In (i, (st, r)) (st_timer s') -> exists r', In (i, (st, r')) (st_timer s).
Proof.
  unfold reset_timers. intros H. destruct (index_difference _ _) as [|x xs]; [injection H as <- _; eauto|].
  apply bind_ok in H as (act & _ & H). apply bind_ok in H as ([nt g2] & _ & H). destruct (negb _); [discriminate|]. injection H as <- _.
  split; [reflexivity|]. cbn [with_timer st_timer]. intros i st r Hin. apply in_map_iff in Hin as ([j [st' r']] & [= <- <- _] & Hin). eauto.
Qed.
Lemma tick_timer s ids s' : timer_tick s ids = Ok s' -> st_states s' = st_states s /\
  forall i st r, In (i, (st, r)) (st_timer s') -> exists r', In (i, (st, r')) (st_timer s).
Proof.
  unfold timer_tick. intros H. destruct (negb _); [discriminate|]. injection H as <-.
  split; [reflexivity|]. cbn [with_timer st_timer]. intros i st r Hin. apply in_map_iff in Hin as ([j [st' r']] & [= <- <- _] & Hin). eauto.
Qed.

Section Fine.
  Context (kinds : nat -> val -> val -> Prop) (w0 : world).

  (** ** One operation *)
  Lemma op_states o d w : (forall a, transits_story a o = false) -> in_states w -> in_states (snd (run_op o d w)).
  Proof.
    intros Nt. set (P := fun w w' : world => in_states w -> in_states w').
    assert (Same : forall w w', w_stories w' = w_stories w -> P w w') by (intros a b E K; unfold in_states; now rewrite E).
    change (P w (snd (run_op o d w))).
    apply (run_op_keeps P (fun _ => True) (fun _ => True) (fun _ => False)); auto; try (intros; apply Same; reflexivity).
    - intros a b c H1 H2 K. auto.
    - intros a ids _ v. unfold story_force, bindM, deref. destruct (nth_error (w_stories v) a) as [s|] eqn:Es; [|now apply Same].
      destruct (force_act_next s ids) as [q s'] eqn:Ef. apply force_timer in Ef as [E T]. intros K. eapply in_states_put; eauto; reflexivity.
    - intros a ids _ v. unfold story_reset, bindM, deref, lift. destruct (nth_error (w_stories v) a) as [s|] eqn:Es; [|now apply Same].
      destruct (nth_error (w_tgens v) (st_tgen s)) as [g|]; [|now apply Same]. destruct (reset_timers s g ids) as [[s' g']|e] eqn:Ef; [|now apply Same].
      apply reset_timer in Ef as [E T]. intros K. eapply in_states_put; eauto; reflexivity.
    - intros a ids st [].
    - intros a K. now rewrite Nt in K.
  Qed.
  Lemma op_tgens o d w : length (w_tgens (snd (run_op o d w))) = length (w_tgens w).
  Proof.
    set (P := fun w w' : world => length (w_tgens w') = length (w_tgens w)).
    change (P w (snd (run_op o d w))).
    apply (run_op_keeps P (fun _ => True) (fun _ => True) (fun _ => True)); auto; try (intros; reflexivity).
    - intros a b c H1 H2. unfold P in *. congruence.
    - intros a ids _ v. unfold story_force, bindM, deref. destruct (nth_error (w_stories v) a) as [s|] eqn:Es; [|reflexivity].
      destruct (force_act_next s ids) as [q s'] eqn:Ef. reflexivity.
    - intros a ids _ v. unfold story_reset, bindM, deref, lift. destruct (nth_error (w_stories v) a) as [s|] eqn:Es; [|reflexivity].
      destruct (nth_error (w_tgens v) (st_tgen s)) as [g|]; [|reflexivity]. destruct (reset_timers s g ids) as [[s' g']|e] eqn:Ef; [|reflexivity].
      unfold P. cbn. apply GensProps.set_nth_length.
    - intros a ids st _ v. unfold story_transit, bindM, deref, lift. destruct (nth_error (w_stories v) a) as [s|]; [|reflexivity].
      destruct (transit_to_state s ids st) as [s'|e]; reflexivity.
  Qed.
  Lemma op_weights o d w : Forall reachable (w_rels w) -> weights_positive w0 w -> weights_positive w0 (snd (run_op o d w)).
  Proof.
    set (P := fun w w' : world => Forall reachable (w_rels w) -> Forall reachable (w_rels w') /\ (weights_positive w0 w -> weights_positive w0 w')).
    assert (Same : forall w w', w_rels w' = w_rels w -> P w w') by (intros a b E K; unfold weights_positive; rewrite E; auto).
    intros R. enough (K : P w (snd (run_op o d w))) by now apply K.
    apply (run_op_keeps P (fun _ => True) (fun _ => True) (fun _ => True)); auto; try (intros; apply Same; reflexivity).
    - intros a b c H1 H2 K. destruct (H1 K) as [K1 X1]. destruct (H2 K1) as [K2 X2]. auto.
    - intros v i r r' Hr St K. assert (Rr : reachable r) by (eapply Forall_nth_error; eauto). cbn [w_rels set_rels]. split.
      + apply Forall_set_nth; [|exact K]. eapply rel_step_reachable; eauto.
      + intros Wp j rel0 H0 P0. destruct (Wp j rel0 H0 P0) as (rel & Hj & Pj). cbn [w_rels set_rels]. rewrite nth_error_set_nth. destruct (Nat.eqb_spec i j) as [<-|_]; [|eauto].
        rewrite Hr. exists r'. split; [reflexivity|]. assert (rel = r) by congruence. subst. eapply positive_step; eauto.
    - intros a ids _ v. unfold story_force, bindM, deref. destruct (nth_error (w_stories v) a) as [s|]; [|now apply Same].
      destruct (force_act_next s ids) as [q s']. now apply Same.
    - intros a ids _ v. unfold story_reset, bindM, deref, lift. destruct (nth_error (w_stories v) a) as [s|]; [|now apply Same].
      destruct (nth_error (w_tgens v) (st_tgen s)) as [g|]; [|now apply Same]. destruct (reset_timers s g ids) as [[s' g']|e]; now apply Same.
    - intros a ids st _ v. unfold story_transit, bindM, deref, lift. destruct (nth_error (w_stories v) a) as [s|]; [|now apply Same].
      destruct (transit_to_state s ids st) as [s'|e]; now apply Same.
  Qed.

  Lemma op_fine o d w d' l w' : of_story w0 o -> (forall ops, o <> OpChain ops) -> fine kinds w0 w ->
    run_op o d w = (Ok (d', l), w') ->
    match o with OpTransit _ _ _ _ | OpBack _ _ => in_states w' | OpAttrUpdate _ _ _ | OpAttrAdd _ _ _ _ | OpPopUpdate _ _ _ => tables_grown w0 w' /\ respects kinds w' | _ => True end -> fine kinds w0 w'.
  Proof.
    intros Ho Sf F H Hx. destruct (op_since w0 o d w d' l w' Ho (fi_since _ _ _ F) H) as [S1 _].
    assert (Ka : (tables_grown w0 w' /\ respects kinds w') \/ w_attrs w' = w_attrs w).
    { assert (Sm : (forall x, ~ changes w o (OAttribute x)) -> w_attrs w' = w_attrs w).
      { intros N. apply nth_error_ext. intros x. pose proof (op_same o d w (OAttribute x) (N x)) as K. rewrite H in K. symmetry. exact K. }
      destruct o; try (left; exact Hx); try (now specialize (Sf _ eq_refl)); right; apply Sm; intros x; cbn [changes]; intros C; unfold dependent_of, generator_of, timer_of in C;
        repeat match goal with
        | K : _ \/ _ |- _ => destruct K
        | K : ex _ |- _ => destruct K
        | K : _ /\ _ |- _ => destruct K
        end; try discriminate; try contradiction. }
    constructor; [exact S1| | | | |].
    - pose proof (op_states o d w) as K. rewrite H in K. cbn [snd] in K. destruct o; try exact Hx; try (now specialize (Sf _ eq_refl)); apply K; try reflexivity; apply F.
    - pose proof (op_tgens o d w) as K. rewrite H in K. cbn [snd] in K. rewrite K. apply F.
    - destruct Ka as [Ka|Ka]; [now apply Ka|]. unfold tables_grown. rewrite Ka. apply F.
    - pose proof (op_weights o d w (sc_reach _ _ (fi_since _ _ _ F)) (fi_weights _ _ _ F)) as K. rewrite H in K. exact K.
    - destruct Ka as [Ka|Ka]; [now apply Ka|]. unfold respects. rewrite Ka. apply F.
  Qed.

  (** ** Kinds of values *)
  Lemma of_kind_agree o new cols r r' : brings o new -> incl (reads o ++ new) cols -> agrees cols r r' -> of_kind kinds w0 o r -> of_kind kinds w0 o r'.
  Proof.
    intros B Hi Ag. destruct o; cbn [of_kind]; try tauto.
    { intros (l & H). exists l. rewrite (Ag named_as); [exact H|]. apply Hi. apply in_or_app. right.
      destruct B as [B|(? & ? & ? & B & _)]; [|discriminate]. cbn in B. subst new. now left. }
    intros H attribute named po x Hin Hpo Hx Sv. specialize (H _ _ _ _ Hin Hpo Hx Sv). cbn [reads] in Hi.
    rewrite (Ag id_field) by (apply Hi; now left). rewrite (Ag named); [exact H|]. apply Hi. apply in_or_app. right.
    destruct B as [B|(? & ? & ? & B & _)]; [|discriminate]. cbn in B. subst new. apply in_map_iff. exists (attribute, named). auto.
  Qed.
  Lemma op_of_kind o new d w d' l w' : brings o new -> fine kinds w0 w -> run_op o d w = (Ok (d', l), w') ->
    rectangular d -> NoDup new -> (forall c, In c new -> ~ In c (df_cols d)) -> incl (reads o) (df_cols d) ->
    forall row', In row' (df_rows d') -> of_kind kinds w0 o (row_of d' row').
  Proof.
    intros B F H R Nn Hf Hr row' Hin. destruct o; try exact I.
    { pose proof (op_tells_given w (fun _ => True) (fun _ => True) (c_date (w_clock w)) _ new d w d' l w' B (held_start w _ _ (sc_reach _ _ (fi_since _ _ _ F))) eq_refl H R Nn Hf Hr row' Hin) as T.
      destruct (T I) as (ts & _ & _ & E & _). exists ts. exact E. }
    intros attribute named po x Hs Hpo Hx (t0 & Et0 & Nt0).
    pose proof (op_tells_given w (fun _ => True) (fun _ => True) (c_date (w_clock w)) _ new d w d' l w' B (held_start w _ _ (sc_reach _ _ (fi_since _ _ _ F))) eq_refl H R Nn Hf Hr row' Hin) as T.
    cbn [tells_given] in T. pose proof (sc_shape _ _ (fi_since _ _ _ F)) as (_ & _ & _ & Sp & _). specialize (Sp pop). rewrite Hpo in Sp. cbn in Sp.
    destruct (nth_error (w_pops w) pop) as [po'|] eqn:Ep; [|discriminate]. injection Sp as Sp.
    destruct (proj1 (fi_tables _ _ _ F) _ _ Et0 Nt0) as (t & Et & _).
    specialize (T attribute named po' x t Hs eq_refl). rewrite Sp in T. specialize (T Hx Et I). unfold looked_up in T.
    assert (K : forall k v, dget k t = Some v -> kinds x k v) by (intros k v E; apply dget_In in E; eapply (fi_kinds _ _ _ F); eauto).
    destruct (row_of d' row' id_field) as [| | | |ids]; auto. destruct T as (vs & -> & T). exists vs. split; [reflexivity|]. eapply Forall2_weaken; [|exact T]. auto.
  Qed.

  (** ** The operations of a story *)
  Hypothesis Wf : well_formed_with kinds w0.
  Lemma sched : forall a s, nth_error (w_stories w0) a = Some s -> scheduled w0 s.
  Proof. intros a s Hs. now apply (proj2 (proj2 Wf)) in Hs. Qed.

  Lemma fine_start : fine kinds w0 w0.
  Proof.
    constructor.
    - apply since_start, Wf.
    - intros a s Hs. now apply sched in Hs as (_ & _ & K & _).
    - reflexivity.
    - split.
      + intros x t0 E N. exists t0. split; [exact E|]. split; [exact N|apply incl_refl].
      + intros x ((t & E & _ & K) & _). eauto.
    - intros r rel0 E P. eauto.
    - apply Wf.
  Qed.

  (** What was looked up and has not changed since is still true. *)
  Definition fresh (before : list op) (d : df) (w : world) : Prop :=
    forall earlier p from select later attribute named po x t, before = earlier ++ OpLookup p from select :: later -> In (attribute, named) select ->
      nth_error (w_pops w0) p = Some po -> dget attribute (p_attrs po) = Some x -> Forall (fun o => ~ changes w0 o (OAttribute x)) later ->
      nth_error (w_attrs w) x = Some t -> forall row, In row (df_rows d) -> looked_up t (row_of d row from) (row_of d row named).
  Lemma op_fresh o new before cols d w d' l w' : brings o new -> fine kinds w0 w -> run_op o d w = (Ok (d', l), w') ->
    rectangular d -> df_cols d = cols -> df_cols d <> [] -> NoDup new -> (forall c, In c new -> ~ In c (df_cols d)) -> incl (reads o) (df_cols d) ->
    Forall (fun o => exists new, brings o new /\ incl (reads o ++ new) cols) before -> fresh before d w -> fresh (before ++ [o]) d' w'.
  Proof.
    intros B F H R Hc Ne Nn Hf Hr Hb Fr earlier p from select later attribute named po x t Eb Hs Hpo Hx Hl Et row' Hin.
    assert (Sm : ~ changes w0 o (OAttribute x) -> nth_error (w_attrs w) x = Some t).
    { intros N. pose proof (op_same o d w (OAttribute x)) as K. rewrite H in K. cbn [same snd] in K. transitivity (nth_error (w_attrs w') x); [|exact Et]. symmetry. apply K.
      intros C. apply N. eapply changes_shape; [|exact C]. apply shape_sym. exact (sc_shape _ _ (fi_since _ _ _ F)). }
    destruct later as [|o1 later] using rev_ind; [|clear IHlater].
    - apply app_inj_tail in Eb as [-> ->]. specialize (Sm (fun C => C)).
      pose proof (op_tells_given w (fun _ => True) (fun _ => True) (c_date (w_clock w)) _ new d w d' l w' B (held_start w _ _ (sc_reach _ _ (fi_since _ _ _ F))) eq_refl H R Nn Hf Hr row' Hin) as T.
      cbn [tells_given] in T. pose proof (sc_shape _ _ (fi_since _ _ _ F)) as (_ & _ & _ & Sp & _). specialize (Sp p). rewrite Hpo in Sp. cbn in Sp.
      destruct (nth_error (w_pops w) p) as [po'|] eqn:Ep; [|discriminate]. injection Sp as Sp.
      specialize (T attribute named po' x t Hs eq_refl). rewrite Sp in T. exact (T Hx Sm I).
    - rewrite app_comm_cons, app_assoc in Eb. apply app_inj_tail in Eb as [-> <-]. apply Forall_app in Hl as [Hl Ho]. inversion Ho as [|? ? Ho1 _]; subst.
      destruct (brings_rows _ _ _ _ _ _ _ B H R Nn Hf Ne) as (_ & _ & Hrows). destruct (Hrows _ Hin) as (row & Hrow & Ag).
      assert (K : exists n', brings (OpLookup p from select) n' /\ incl (from :: n') (df_cols d)).
      { rewrite Forall_forall in Hb. apply Hb. apply in_or_app. right. now left. }
      destruct K as (n' & B' & I'). destruct B' as [B'|(? & ? & ? & B' & _)]; [|discriminate]. cbn in B'. subst n'.
      rewrite (Ag from) by (apply I'; now left). rewrite (Ag named) by (apply I'; right; apply in_map_iff; exists (attribute, named); auto).
      apply (Fr earlier p from select later attribute named po x t); auto.
  Qed.

  (** What is known before an operation of a story *)
  Record known (s0 : story) (before : list op) (cols : list string) (date : Z) (d : df) (w : world) : Prop := {
    kn_before : Forall (fun o => exists new, brings o new /\ incl (reads o ++ new) cols) before;
    kn_member : In (st_field s0) cols;
    kn_frame : framed s0 cols d;
    kn_tells : forall row, In row (df_rows d) -> Forall (fun o => tells w0 date o (row_of d row)) before;
    kn_kinds : forall row, In row (df_rows d) -> Forall (fun o => of_kind kinds w0 o (row_of d row)) before;
    kn_fresh : fresh before d w;
    kn_fine : fine kinds w0 w;
    kn_date : c_date (w_clock w) = date
  }.

  Lemma known_after s0 before cols date d w o new d1 l1 w1 : of_story w0 o -> brings o new -> NoDup new -> (forall c, In c new -> ~ In c cols) -> incl (reads o) cols ->
    known s0 before cols date d w -> run_op o d w = (Ok (d1, l1), w1) -> fine kinds w0 w1 -> known s0 (before ++ [o]) (cols ++ new) date d1 w1.
  Proof.
    intros Ho Br Nn Hf Hr [Hb Hfield (Rd & Hc & Nd & Hm) Ht Hkd Fr F Hd] H1 F1.
    destruct (op_since _ _ _ _ _ _ _ Ho (fi_since _ _ _ F) H1) as [_ Hd1]. rewrite Hd in Hd1.
    assert (Hf' : forall c, In c new -> ~ In c (df_cols d)) by now rewrite Hc.
    assert (Hr' : incl (reads o) (df_cols d)) by now rewrite Hc.
    assert (Ne : df_cols d <> []) by (rewrite Hc; intros K; rewrite K in Hfield; destruct Hfield).
    destruct (brings_rows _ _ _ _ _ _ _ Br H1 Rd Nn Hf' Ne) as (Hc1 & Rd1 & Hrows).
    destruct (brings_index _ _ _ _ _ _ _ Br H1 Rd Nn Hf' Nd) as (Nd1 & Hix).
    pose proof (op_tells _ _ _ _ _ _ _ _ _ Br (fi_since _ _ _ F) Hd H1 Rd Nn Hf' Hr') as T.
    pose proof (op_of_kind _ _ _ _ _ _ _ Br F H1 Rd Nn Hf' Hr') as Tk.
    constructor.
    - apply Forall_app. split.
      + eapply Forall_impl; [|exact Hb]. cbv beta. intros o' (n' & B' & I'). exists n'. split; [exact B'|]. intros c Hin. apply in_or_app. left. now apply I'.
      + constructor; [|constructor]. exists new. split; [exact Br|]. intros c Hin. apply in_app_or in Hin as [Hin|Hin]; apply in_or_app; [left|now right].
        now apply Hr.
    - apply in_or_app. now left.
    - split; [exact Rd1|]. split; [now rewrite Hc1, Hc|]. split; [exact Nd1|]. intros row' Hin. destruct (Hix _ Hin) as (row & Hrow & E & Ag).
      rewrite E, (Ag (st_field s0)) by (rewrite Hc; exact Hfield). now apply Hm.
    - intros row' Hin. destruct (Hrows _ Hin) as (row & Hin0 & Ag). specialize (Ht row Hin0).
      apply Forall_app. split; [|constructor; [now apply T|constructor]]. rewrite Forall_forall in Ht, Hb |- *. intros o' Ho'.
      destruct (Hb _ Ho') as (n' & B' & I'). eapply tells_agree; [exact B'|exact I'| |now apply Ht]. now rewrite <- Hc.
    - intros row' Hin. destruct (Hrows _ Hin) as (row & Hin0 & Ag). specialize (Hkd row Hin0).
      apply Forall_app. split; [|constructor; [now apply Tk|constructor]]. rewrite Forall_forall in Hkd, Hb |- *. intros o' Ho'.
      destruct (Hb _ Ho') as (n' & B' & I'). eapply of_kind_agree; [exact B'|exact I'| |now apply Hkd]. now rewrite <- Hc.
    - eapply (op_fresh o new before cols d w d1 l1 w1); eauto.
    - exact F1.
    - exact Hd1.
  Qed.

  Lemma list_runs a s0 (Es0 : nth_error (w_stories w0) a = Some s0) before cols ops : safe_ops kinds w0 s0 before cols ops -> forall d l0 w date,
    st_ops s0 = before ++ ops -> known s0 before cols date d w ->
    exists d' l w', run_list run_op ops d l0 w = (Ok (d', l), w') /\ fine kinds w0 w'.
  Proof.
    induction 1 as [before cols|before cols o new ops Br Nn Hf Hr Sf _ IH|before cols x named ops p select attribute earlier later Eb Hs Hx Hl Ac Hq H0 Hid Hi _ IH]; intros d l0 w date Eo K.
    - exists d, l0, w. split; [reflexivity|apply K].
    - pose proof K as [Hb Hfield (Rd & Hc & Nd & Hm) Ht Hkd Fr F Hd].
      assert (Ho : of_story w0 o) by (exists a, s0; split; [exact Es0|]; rewrite Eo; apply in_or_app; right; now left).
      assert (Hp : forall row, In row (df_rows d) -> possible_row kinds w0 s0 before (row_of d row)).
      { intros row Hrow. destruct (Hm row Hrow) as [E1 E2]. split; [now rewrite E1|]. split; [exists date; now apply Ht|now apply Hkd]. }
      destruct (op_succeeds kinds w0 (st_ids s0) (st_field s0) (possible_row kinds w0 s0 before) sched w F cols d Rd Hc Nd Hfield Hm Hp o new Ho Br Nn Hf Hr Sf) as (d1 & l1 & w1 & H1 & X).
      assert (F1 : fine kinds w0 w1) by (apply (op_fine o d w d1 l1 w1 Ho); auto; intros os ->; exact Sf).
      destruct (merge_logs_total l0 l1) as (all & M). rewrite (run_list_forward _ _ _ _ _ _ _ _ _ H1 M).
      apply (IH d1 all w1 date); [rewrite <- app_assoc; exact Eo|]. eapply known_after; eauto.
    - pose proof K as [Hb Hfield (Rd & Hc & Nd & Hm) Ht Hkd Fr F Hd]. set (o := OpAttrAdd x (st_field s0) named true) in *.
      assert (Ho : of_story w0 o) by (exists a, s0; split; [exact Es0|]; rewrite Eo; apply in_or_app; right; now left).
      assert (Br : brings o []) by (left; reflexivity).
      destruct (settle_now kinds w0 (st_ids s0) (st_field s0) (fun _ => True) w F cols d Rd Hc Nd Hm (fun _ _ => I) x named Hi Ac Hq H0) as (d1 & l1 & w1 & H1 & X).
      { intros t i Et Hin. now apply (Hid t i Et Hin). }
      { intros t row Et Hrow. destruct Hx as (po & Hpo & Hx). destruct (Hm row Hrow) as [E1 E2].
        pose proof (Fr earlier p (st_field s0) select later attribute named po x t Eb Hs Hpo Hx Hl Et row Hrow) as L. rewrite E1 in L. unfold looked_up in L.
        destruct Ac as ((t0 & E0 & _) & _). pose proof (proj2 (Hid t0 _ E0 E2)) as Np. destruct (fst row) as [| | | |l]; try exact L. now destruct (Np l). }
      assert (F1 : fine kinds w0 w1) by (apply (op_fine o d w d1 l1 w1 Ho); auto; discriminate).
      destruct (merge_logs_total l0 l1) as (all & M). rewrite (run_list_forward _ _ _ _ _ _ _ _ _ H1 M).
      apply (IH d1 all w1 date); [rewrite <- app_assoc; exact Eo|]. rewrite <- (app_nil_r cols).
      apply (known_after s0 before cols date d w o [] d1 l1 w1 Ho Br (NoDup_nil _)); try assumption; intros c [].
  Qed.

  (** ** Whatever else happens *)
  Lemma fields_fine w w' : fine kinds w0 w -> since w0 w' -> w_rels w' = w_rels w -> w_attrs w' = w_attrs w -> length (w_tgens w') = length (w_tgens w) -> in_states w' -> fine kinds w0 w'.
  Proof.
    intros F S E1 E2 E3 I. constructor; [exact S|exact I| | | |].
    - rewrite E3. apply F.
    - unfold tables_grown. rewrite E2. apply F.
    - unfold weights_positive. rewrite E1. apply F.
    - unfold respects. rewrite E2. apply F.
  Qed.
  Lemma other_fine h w w' : (forall a, h <> HExec a) -> happen h w = (Ok tt, w') -> fine kinds w0 w -> in_states w' -> fine kinds w0 w'.
  Proof.
    intros N H F I. destruct (other_fields h w w' N H) as (_ & _ & E1 & E2). apply (fields_fine w); auto.
    - eapply other_since; eauto. apply F.
    - destruct h as [b| |b ids|b ids|b ids states|b ids]; cbn [happen] in H; [now specialize (N b)|injection H as <-| | | |].
      + unfold increment_clock. destruct (clock_increment (w_clock w, w_tgens w)) as [c gens] eqn:E. cbn [w_tgens set_tgens].
        destruct (clock_ticks (w_clock w) (w_tgens w) 1) as (_ & _ & _ & L & _). cbn [Nat.iter nat_rect] in L. now rewrite E in L.
      + apply story_force_ok in H as (s & s' & _ & _ & ->). reflexivity.
      + apply story_reset_ok in H as (s & s' & g & g' & _ & _ & _ & ->). cbn. apply GensProps.set_nth_length.
      + apply story_transit_ok in H as (s & s' & _ & _ & ->). reflexivity.
      + apply story_tick_ok in H as (s & s' & _ & _ & ->). reflexivity.
  Qed.
  Lemma tick_fine a ids w w' : story_tick a ids w = (Ok tt, w') -> fine kinds w0 w -> fine kinds w0 w'.
  Proof.
    intros H F. apply (other_fine (HTick a ids) w w'); [discriminate|exact H|exact F|]. apply story_tick_ok in H as (s & s' & Hs & E & ->). apply tick_timer in E as [E1 E2].
    eapply in_states_put; [apply F|exact Hs|exact E1|exact E2|reflexivity].
  Qed.
  Lemma reset_fine a ids w w' : story_reset a ids w = (Ok tt, w') -> fine kinds w0 w -> fine kinds w0 w'.
  Proof.
    intros H F. apply (other_fine (HReset a ids) w w'); [discriminate|exact H|exact F|]. apply story_reset_ok in H as (s & s' & g & g' & Hs & _ & E & ->). apply reset_timer in E as [E1 E2].
    eapply in_states_put; [apply F|exact Hs|exact E1|exact E2|reflexivity].
  Qed.
  Lemma force_fine a ids w w' : story_force a ids w = (Ok tt, w') -> fine kinds w0 w -> fine kinds w0 w'.
  Proof.
    intros H F. apply (other_fine (HForce a ids) w w'); [discriminate|exact H|exact F|]. apply story_force_ok in H as (s & s' & Hs & E & ->). apply force_timer in E as [E1 E2].
    eapply in_states_put; [apply F|exact Hs|exact E1|exact E2|reflexivity].
  Qed.
  Lemma unforced_fine a s w : fine kinds w0 w -> nth_error (w_stories w) a = Some s -> fine kinds w0 (unforced a s w).
  Proof.
    intros F Hs. apply (fields_fine w); try reflexivity; [exact F|now apply unforced_since; [apply F|]|].
    eapply (in_states_put a s (with_forced s [])); [apply F|exact Hs|reflexivity| |reflexivity]. cbn. eauto.
  Qed.

  (** ** One execution *)
  Lemma execute_runs a w : story_in w0 a -> fine kinds w0 w -> exists l w', execute a w = (Ok l, w') /\ fine kinds w0 w'.
  Proof.
    intros Hin F. destruct (story_now kinds w0 w F a Hin) as (s0 & s & Es0 & Hs & T). pose proof T as (_ & _ & Tf & _ & Ta & _ & _ & To & Ti).
    pose proof (unforced_fine a s w F Hs) as Fu.
    assert (Hmem : forall i, In i (st_ids s) -> member_of w0 a i) by (intros i Hi; exists s0; rewrite <- Ti; auto).
    assert (Hdue : forall i, In i (due_members s) -> In i (st_ids s)).
    { intros i Hi. unfold due_members in Hi. unfold st_ids, dkeys. apply in_map_iff in Hi as (x & <- & Hx). apply filter_In in Hx as [Hx _]. now apply in_map. }
    assert (Hina : forall i, In i (snd (active_inactive_ids s)) -> In i (st_ids s)).
    { intros i Hi. cbn [active_inactive_ids snd] in Hi. unfold st_ids, dkeys. apply in_map_iff in Hi as (x & <- & Hx). apply filter_In in Hx as [Hx _]. now apply in_map. }
    pose proof (sched a s0 Es0) as (Nd0 & _). destruct (proj2 (proj2 Wf) a s0 Es0) as [_ Sf].
    destruct (due_members s) as [|i0 due0] eqn:Ed.
    - destruct (tick_now kinds w0 (unforced a s w) Fu a (snd (active_inactive_ids s)) Hin) as (w1 & E1); [auto|].
      exists [], w1. split; [|eapply tick_fine; eauto].
      unfold execute. unfold bindM at 1, deref. rewrite Hs. unfold bindM at 1. change (put_story a (with_forced s []) w) with (Ok tt, unforced a s w). cbv beta iota.
      unfold active_inactive_ids in *. change (map fst (filter is_due (st_timer s))) with (due_members s). rewrite Ed. cbn [snd] in E1.
      unfold bindM at 1, ret at 1. unfold bindM at 1. rewrite E1. reflexivity.
    - rewrite <- Ed in *.
      assert (Ndue : NoDup (due_members s)) by (apply NoDup_due; now rewrite Ti).
      destruct (list_runs a s0 Es0 [] [st_field s0] (st_ops s0) Sf (init_story_data (st_field s) (due_members s)) [] (unforced a s w) (c_date (w_clock (unforced a s w)))) as (d & l & w1 & Ech & F1).
      + reflexivity.
      + constructor.
        * constructor.
        * now left.
        * split; [apply init_rect|]. split; [cbn; now rewrite Tf|]. split.
          -- unfold df_index. cbn [init_story_data df_rows]. rewrite map_map. cbn [fst]. now rewrite map_id.
          -- intros row Hrow. cbn [init_story_data df_rows] in Hrow. apply in_map_iff in Hrow as (i & <- & Hi). unfold row_of. cbn [snd fst df_cols init_story_data cell].
             rewrite Tf, String.eqb_refl. split; [reflexivity|]. rewrite <- Ti. auto.
        * intros row _. constructor.
        * intros row _. constructor.
        * intros earlier. intros. destruct earlier; discriminate.
        * exact Fu.
        * reflexivity.
      + assert (X : exists w2, (if st_auto s then story_reset a (Some (due_members s)) else story_tick a (due_members s)) w1 = (Ok tt, w2) /\ fine kinds w0 w2).
        { destruct (st_auto s).
          - destruct (reset_now kinds w0 sched w1 F1 a (Some (due_members s)) Hin) as (w2 & E2); [split; auto|]. exists w2. split; [exact E2|eapply reset_fine; eauto].
          - destruct (tick_now kinds w0 w1 F1 a (due_members s) Hin) as (w2 & E2); [auto|]. exists w2. split; [exact E2|eapply tick_fine; eauto]. }
        destruct X as (w2 & E2 & F2). destruct (tick_now kinds w0 w2 F2 a (snd (active_inactive_ids s)) Hin) as (w3 & E3); [auto|].
        exists l, w3. split; [|eapply tick_fine; eauto].
        unfold execute. unfold bindM at 1, deref. rewrite Hs. unfold bindM at 1. change (put_story a (with_forced s []) w) with (Ok tt, unforced a s w). cbv beta iota.
        unfold active_inactive_ids in *. change (map fst (filter is_due (st_timer s))) with (due_members s). cbn [snd] in E3.
        rewrite To. rewrite Ed in *. rewrite <- Ed in *.
        unfold bindM at 1. unfold bindM at 1. unfold run_chain. rewrite Ech. unfold bindM at 1. rewrite E2. unfold ret at 1. unfold bindM at 1. rewrite E3. reflexivity.
  Qed.

  Lemma happening_runs h w : sensible w0 h -> fine kinds w0 w -> exists w', happen h w = (Ok tt, w') /\ fine kinds w0 w'.
  Proof.
    intros Hs F. destruct h as [a| |a ids|a ids|a ids states|a ids]; cbn [sensible happen] in *.
    - destruct (execute_runs a w Hs F) as (l & w' & E & F'). rewrite E. eauto.
    - exists (increment_clock w). split; [reflexivity|]. apply (other_fine HClock w); [discriminate|reflexivity|exact F|].
      pose proof (increment_stories w) as E. unfold in_states. rewrite E. apply F.
    - destruct Hs as [H1 H2]. destruct (force_now kinds w0 w F a ids H1 H2) as (w' & E). exists w'. split; [exact E|eapply force_fine; eauto].
    - destruct (reset_now kinds w0 sched w F a ids) as (w' & E).
      + destruct ids; [apply Hs|exact Hs].
      + destruct ids; [apply Hs|exact I].
      + exists w'. split; [exact E|eapply reset_fine; eauto].
    - destruct Hs as (H1 & H2 & H3 & H4). destruct (transit_now kinds w0 w F a ids states H1 H3 H2 H4 w eq_refl) as (w' & E & I). exists w'. split; [exact E|].
      apply (other_fine (HTransit a ids states) w w'); [discriminate|exact E|exact F|exact I].
    - destruct Hs as [H1 H2]. destruct (tick_now kinds w0 w F a ids H1 H2) as (w' & E). exists w'. split; [exact E|eapply tick_fine; eauto].
  Qed.

  Lemma history_runs hs : Forall (sensible w0) hs -> forall w, fine kinds w0 w -> exists w', history w hs w' /\ fine kinds w0 w'.
  Proof.
    induction 1 as [|h hs Hh _ IH]; intros w F; [exists w; split; [constructor|exact F]|].
    destruct (happening_runs h w Hh F) as (w1 & E & F1). destruct (IH w1 F1) as (w2 & E2 & F2). exists w2. split; [econstructor; eauto|exact F2].
  Qed.
End Fine.

Lemma safe_history w hs : well_formed w -> Forall (sensible w) hs -> exists w', history w hs w'.
Proof. intros [kinds Wf] Hs. destruct (history_runs kinds w Wf hs Hs w (fine_start kinds w Wf)) as (w' & H & _). eauto. Qed.

Lemma steps_sensible w n : Forall (sensible w) (steps_of (length (w_stories w)) n).
Proof.
  apply Forall_forall. intros h Hin. unfold steps_of in Hin. apply in_concat in Hin as (l & Hl & Hin). apply repeat_spec in Hl. subst l.
  unfold one_step in Hin. apply in_app_or in Hin as [Hin|[<-|[]]]; [|exact I]. apply in_map_iff in Hin as (a & <- & Ha). apply in_seq in Ha. cbn.
  unfold story_in. destruct (nth_error (w_stories w) a) as [s|] eqn:E; [eauto|]. apply nth_error_None in E. lia.
Qed.
