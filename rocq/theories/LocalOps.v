(** Locality of every operation, chain and story execution. *)
From Verif Require Import Base BaseFacts Rng Utils Relationship RelationshipFacts Frame Gens Clock Attribute AttributeFacts World Story Ops OpsFacts
  StoryFacts SpecLocal LocalFacts.

Lemma bool_or {A} (b : bool) (x y : A) (P : A -> Prop) : P x -> P y -> P (if b then x else y).
Proof. destruct b; auto. Qed.

Section Ops.
  Context (U W : object -> Prop) (w0 : world).
  Local Notation loc := (local U W w0).

  Ltac lb := first [apply local_lift|apply local_ret|apply local_raise].
  Ltac done4 := split; [reflexivity|]; split; [assumption|]; split; [apply shape_refl|]; intros; apply same_refl.

  Lemma local_story a (f : story -> result story) :
    (forall s s', f s = Ok s' -> fixed s' = fixed s) -> U (OStory a) -> W (OStory a) ->
    loc (let* s := deref w_stories a in let* s' := lift (f s) in put_story a s').
  Proof.
    intros Hf Ua Wa. apply (local_deref_then U W w0 w_stories OStory); [reflexivity|exact Ua|].
    intros w s S Hs w2 A'. unfold bindM, lift. destruct (f s) as [s'|e] eqn:E.
    - eapply put_story_local; eauto.
    - cbn. done4.
  Qed.

  Lemma local_transit a ids states : U (OStory a) -> W (OStory a) -> loc (story_transit a ids states).
  Proof.
    apply local_story. intros s s'. unfold transit_to_state. destruct (negb _); [discriminate|].
    destruct (negb _); [discriminate|]. intros [= <-]. reflexivity.
  Qed.
  Lemma local_tick a ids : U (OStory a) -> W (OStory a) -> loc (story_tick a ids).
  Proof.
    apply local_story. intros s s'. unfold timer_tick. destruct (st_forced s); (destruct (negb _); [discriminate|]); intros [= <-]; reflexivity.
  Qed.
  Lemma local_force a ids : U (OStory a) -> W (OStory a) -> loc (story_force a ids).
  Proof.
    intros Ua Wa. apply (local_deref_then U W w0 w_stories OStory); [reflexivity|exact Ua|].
    intros w s S Hs w2 A'. destruct (force_act_next s ids) as [res s'] eqn:E.
    assert (T : fixed s' = fixed s).
    { unfold force_act_next in E. destruct ids; [injection E as _ <-; reflexivity|].
      destruct (negb _); injection E as _ <-; reflexivity. }
    pose proof (put_story_local U W a s s' w w2 Wa Hs T A') as (E1 & E2 & E3 & E4).
    unfold bindM. unfold put_story, modify, lift in *. cbn in *. auto.
  Qed.
  Lemma local_reset a ids : U (OStory a) -> W (OStory a) -> (forall x, timer_of w0 a x -> U x) -> (forall x, timer_of w0 a x -> W x) ->
    loc (story_reset a ids).
  Proof.
    intros Ua Wa Ut Wt. apply (local_deref_then U W w0 w_stories OStory); [reflexivity|exact Ua|].
    intros w s S Hs w2 A'.
    assert (Ht : timer_of w0 a (OTimer (st_tgen s))).
    { destruct S as (_ & _ & _ & _ & S & _). specialize (S a). rewrite Hs in S. cbn in S.
      destruct (nth_error (w_stories w0) a) as [s0|] eqn:E0; [|discriminate]. injection S as S _. exists s0. split; [exact E0|]. now rewrite S. }
    assert (L : loc (let* g := deref w_tgens (st_tgen s) in
                     let* (s', g') := lift (reset_timers s g ids) in
                     let* _ := put_tgen (st_tgen s) g' in ret s')).
    { apply local_bind; [apply (local_deref U W w0 w_tgens OTimer); [reflexivity|now apply Ut]|]. intros g.
      apply local_bind; [lb|]. intros [s' g']. apply local_bind; [apply local_put_tgen, Wt, Ht|]. intros _. lb. }
    destruct (L w w2 S A') as (E1 & E2 & E3 & E4). clear L.
    assert (Ew : w_stories (snd ((let* g := deref w_tgens (st_tgen s) in
                     let* (s', g') := lift (reset_timers s g ids) in
                     let* _ := put_tgen (st_tgen s) g' in ret s') w)) = w_stories w).
    { unfold bindM, deref, lift, put_tgen, modify, ret. destruct (nth_error (w_tgens w) (st_tgen s)); [|reflexivity].
      destruct (reset_timers s t ids) as [[s' g']|]; reflexivity. }
    revert E1 E2 E3 E4 Ew. unfold bindM, deref.
    assert (Eg : nth_error (w_tgens w2) (st_tgen s) = nth_error (w_tgens w) (st_tgen s)) by exact (A' _ (Ut _ Ht)).
    rewrite Eg. destruct (nth_error (w_tgens w) (st_tgen s)) as [g|]; [|cbn; auto].
    unfold lift. destruct (reset_timers s g ids) as [[s' g']|e] eqn:Er; [|cbn; auto].
    unfold put_tgen at 1 2 3 4 5 6 7, modify at 1 2 3 4 5 6 7, ret. cbn [fst snd]. intros _ E2 E3 E4 Ew.
    assert (T : fixed s' = fixed s).
    { unfold reset_timers in Er. destruct (index_difference _ _); [injection Er as <- _; reflexivity|].
      apply bind_ok in Er as (act & _ & Er). apply bind_ok in Er as ([nt g2] & _ & Er).
      destruct (negb _); [discriminate|]. injection Er as <- _. reflexivity. }
    unfold put_tgen, modify.
    destruct (put_story_local U W a s s' _ _ Wa (eq_trans (f_equal (fun l => nth_error l a) Ew) Hs) T E2) as (F1 & F2 & F3 & F4).
    split; [exact F1|]. split; [exact F2|]. split; [exact (shape_trans _ _ _ E3 F3)|]. intros x Hx. exact (same_trans _ _ _ _ (E4 x Hx) (F4 x Hx)).
  Qed.

  Lemma local_if_rows d m : loc m -> loc (if_rows d m).
  Proof. intros H. unfold if_rows. destruct (df_rows d); [lb|exact H]. Qed.
  Lemma local_side_effect d m : loc m -> loc (side_effect d m).
  Proof. intros H. apply local_bind; [exact H|intros; lb]. Qed.
  Lemma local_transformed m : loc m -> loc (transformed m).
  Proof. intros H. apply local_bind; [exact H|intros; lb]. Qed.

  Lemma local_call_rel {A} i (f : relationship -> result (A * relationship)) : U (ORelationship i) -> W (ORelationship i) ->
    loc (let* r := deref w_rels i in let* (a, r') := lift (f r) in let* _ := put_rel i r' in ret a).
  Proof.
    intros Ui Wi. apply local_bind; [now apply local_deref_rel|intros r]. apply local_bind; [lb|intros [a r']].
    apply local_bind; [now apply local_put_rel|intros; lb].
  Qed.

  Lemma local_rel_add i froms tos : U (ORelationship i) -> W (ORelationship i) -> loc (rel_add i froms tos).
  Proof.
    intros Ui Wi. apply local_bind; [now apply local_deref_rel|intros r]. apply local_bind; [lb|intros r']. now apply local_put_rel.
  Qed.
  Lemma local_rel_add_grouped i froms items : U (ORelationship i) -> W (ORelationship i) -> loc (rel_add_grouped i froms items).
  Proof.
    intros Ui Wi. apply local_bind; [now apply local_deref_rel|intros r]. apply local_bind; [lb|intros r']. now apply local_put_rel.
  Qed.
  Lemma local_update_attr i s : U (OAttribute i) -> W (OAttribute i) -> loc (update_attr i s).
  Proof.
    intros Ui Wi. apply local_bind; [now apply local_deref_attr|intros t]. destruct (attr_update t s) as [res t'].
    apply local_bind; [now apply local_put_attr|intros; lb].
  Qed.
  Lemma local_foreach {A} (f : A -> M unit) l : (forall x, loc (f x)) -> loc (foreach f l).
  Proof. intros Hf. induction l as [|x l IH]; [lb|]. apply local_bind; [apply Hf|intros; exact IH]. Qed.

  (** looking up an attribute by name, then using it *)
  Lemma local_attribute_then {B} p name (k : nat -> M B) : U (OPopulation p) ->
    (forall a, attribute_of w0 p (OAttribute a) -> loc (k a)) -> loc (let* a := get_attribute p name in k a).
  Proof.
    intros Up Hk. unfold get_attribute.
    intros w1 w2 S A'. pose proof (A' _ Up) as E. cbn in E. unfold bindM, deref, lift. rewrite E.
    destruct (nth_error (w_pops w1) p) as [po|] eqn:Ep; [|cbn; done4].
    destruct (dget name (p_attrs po)) as [a|] eqn:Ea; [|cbn; done4].
    apply Hk; [|exact S|exact A']. destruct S as (_ & _ & _ & S & _). specialize (S p). rewrite Ep in S. cbn in S.
    destruct (nth_error (w_pops w0) p) as [po0|] eqn:E0; [|discriminate]. injection S as S.
    exists po0, name, a. split; [exact E0|]. split; [|reflexivity]. rewrite <- S. now apply dget_In.
  Qed.

  Lemma local_pop_update p d : U (OPopulation p) -> W (OPopulation p) -> (forall x, attribute_of w0 p x -> U x) ->
    (forall x, attribute_of w0 p x -> W x) -> loc (pop_update p d).
  Proof.
    intros Up Wp Ua Wa. unfold pop_update.
    apply (local_deref_then U W w0 w_pops OPopulation); [reflexivity|exact Up|].
    intros w po S Hp w2 A'. destruct (negb (same_names _ _)); [cbn; done4|].
    destruct (negb (nodupb _)); [cbn; done4|]. cbv zeta.
    match goal with |- context [put_pop p ?x] => set (px := x) end.
    match goal with |- context [foreach ?f ?l] => set (ff := f); set (ll := l) end.
    destruct (put_pop_local U W p po px w w2 Wp Hp eq_refl A') as (F1 & F2 & F3 & F4).
    assert (Lf : loc (foreach ff ll)).
    { apply local_foreach. intros name. unfold ff. apply local_bind; [lb|intros s].
      apply local_attribute_then; [exact Up|]. intros a Ha. apply local_update_attr; auto. }
    unfold bindM. unfold put_pop, modify. cbv beta iota. unfold put_pop, modify in F2, F3, F4. cbn [fst snd] in F2, F3, F4.
    destruct (Lf _ _ (shape_trans _ _ _ S F3) F2) as (G1 & G2 & G3 & G4).
    split; [exact G1|]. split; [exact G2|]. split; [exact (shape_trans _ _ _ F3 G3)|]. intros x Hx. exact (same_trans _ _ _ _ (F4 x Hx) (G4 x Hx)).
  Qed.

  Lemma local_attr_values_then {B} p name ids (k : series -> M B) : U (OPopulation p) -> (forall x, attribute_of w0 p x -> U x) ->
    (forall t, loc (k t)) -> loc (let* t := get_attribute_values p name ids in k t).
  Proof.
    intros Up Ua Hk. apply local_bind; [|exact Hk]. unfold get_attribute_values. apply local_attribute_then; [exact Up|].
    intros a Ha. apply local_bind; [apply local_deref_attr; auto|intros; lb].
  Qed.

  Lemma local_lookup_columns p cells select : U (OPopulation p) -> (forall x, attribute_of w0 p x -> U x) ->
    loc (lookup_columns p cells select).
  Proof.
    intros Up Ua. induction select as [|[attribute named] select IH]; cbn [lookup_columns]; [lb|].
    apply local_attr_values_then; [exact Up|exact Ua|]. intros t. destruct (negb (nodupb (dkeys t))); [lb|].
    apply local_bind; [lb|intros c]. apply local_bind; [exact IH|intros; lb].
  Qed.

  Lemma local_lookup_output p f select d : U (OPopulation p) -> (forall x, attribute_of w0 p x -> U x) ->
    loc (lookup_output p f select d).
  Proof.
    intros Up Ua. unfold lookup_output. destruct (negb (nodupb _)); [lb|]. destruct (df_rows d); [lb|].
    apply local_bind; [lb|intros ids]. apply local_bind; [now apply local_lookup_columns|intros; lb].
  Qed.

  Lemma local_back a judge d : U (OStory a) -> W (OStory a) -> (forall x, generator_of w0 judge x -> U x) ->
    (forall x, generator_of w0 judge x -> W x) -> loc (back_to_default a judge d).
  Proof.
    intros Ua Wa Uj Wj. unfold back_to_default. apply local_bind; [now apply local_deref_story|intros s].
    destruct (negb (known s (df_index d))); [lb|]. destruct (filter _ (df_index d)); [lb|].
    apply local_bind; [lb|intros bp]. apply local_bind; [|intros; now apply local_transit].
    destruct (forallb _ bp); [lb|]. destruct (forallb _ bp); [lb|].
    apply local_bind; [now apply local_generate|intros]. apply local_bind; [lb|intros; lb].
  Qed.

  Lemma local_timestamp {A} size random (k : list Z -> M A) : U OClock -> (random = true -> W OClock) -> (forall l, loc (k l)) ->
    loc (let* c := get w_clock in
         let* (dates, c') := lift (get_timestamp c size random) in
         let* _ := modify (set_clock c') in k dates).
  Proof.
    intros Uc Wc Hk w1 w2 S A'. pose proof (A' _ Uc) as E. cbn in E. unfold bindM, get, lift, modify. rewrite E.
    destruct (get_timestamp (w_clock w1) size random) as [[dates c']|e] eqn:G; [|cbn; done4].
    assert (A1 : agree U (set_clock c' w1) (set_clock c' w2)).
    { intros x Ux. specialize (A' x Ux). destruct x; cbn in *; auto. }
    assert (Cl : c_listeners c' = c_listeners (w_clock w1)).
    { unfold get_timestamp in G. destruct random; [|now injection G as _ <-].
      apply bind_ok in G as ([? ?] & _ & G). now injection G as _ <-. }
    assert (S1 : shape w1 (set_clock c' w1)) by (split; [reflexivity|]; split; [apply same_parents_refl|]; repeat apply conj; try reflexivity; exact Cl).
    destruct (Hk dates _ _ (shape_trans _ _ _ S S1) A1) as (G1 & G2 & G3 & G4).
    split; [exact G1|]. split; [exact G2|]. split; [exact (shape_trans _ _ _ S1 G3)|]. intros x Hx. eapply same_trans; [|apply G4; exact Hx].
    destruct x; cbn; try reflexivity. destruct random; [exfalso; apply Hx; auto|].
    unfold get_timestamp in G. injection G as _ <-. reflexivity.
  Qed.

  Lemma local_run_list (run : op -> df -> M (df * logs)) ops :
    (forall o d, In o ops -> loc (run o d)) -> forall d l, loc (run_list run ops d l).
  Proof.
    induction ops as [|o ops IH]; intros H d l; cbn [run_list]; [lb|].
    apply local_bind; [apply H; now left|]. intros [out supp]. apply local_bind; [lb|]. intros all.
    apply IH. intros o' d' Ho. apply H. now right.
  Qed.

  Lemma local_gen_dep d g named (obs : series) : U (ODependent g) -> W (ODependent g) ->
    (forall x, dependent_of w0 g x -> U x) -> (forall x, dependent_of w0 g x -> W x) ->
    loc (let* dg := deref w_dgens g in
         let* gens := get w_gens in
         let* (values, dg', gens') := lift (dgen_generate gens dg (map snd obs)) in
         let* _ := modify (set_gens gens') in
         let* dgens := get w_dgens in
         let* _ := modify (set_dgens (set_nth g dg' dgens)) in
         let* out := lift (column d named values) in
         lift (add_columns JLeft d out)).
  Proof.
    intros Ug Wg Ud Wd. apply (local_deref_then U W w0 w_dgens ODependent); [reflexivity|exact Ug|].
    intros w dg S Hdg w2 A'.
    set (V := fun j => exists e, dg = DBulk e /\ built_from (w_gens w0) e j).
    assert (HV : forall j, V j -> dependent_of w0 g (OGenerator j)).
    { intros j (e & -> & He). right. exists e. split; [now apply S|]. exists j. auto. }
    pose proof (dgen_alike (fun j => U (OGenerator j)) V (w_gens w) (w_gens w2) dg (map snd obs)) as H.
    assert (C : closed V (w_gens w)).
    { apply (closed_same _ (w_gens w0)); [apply S|]. intros i g0 p (e & -> & He) Hg Hp Hlt. exists e. split; [reflexivity|].
      eapply built_from_closed; eauto. }
    specialize (H C (fun e E => ex_intro _ e (conj E (bf_self _ e))) (fun j Vj => Ud _ (HV j Vj)) (fun j Uj => A' (OGenerator j) Uj)).
    unfold bindM, get, lift, modify.
    destruct (dgen_generate (w_gens w) dg (map snd obs)) as [[[v1 d1] h1]|]; destruct (dgen_generate (w_gens w2) dg (map snd obs)) as [[[v2 d2] h2]|]; cbn [fst snd]; try tauto.
    2:{ split; [congruence|]. split; [exact A'|]. split; [apply shape_refl|]. intros; apply same_refl. }
    destruct H as (-> & -> & Hd & Ag & Sp & L).
    change (w_dgens (set_gens h1 w)) with (w_dgens w). change (w_dgens (set_gens h2 w2)) with (w_dgens w2).
    set (u1 := set_dgens (set_nth g d2 (w_dgens w)) (set_gens h1 w)). set (u2 := set_dgens (set_nth g d2 (w_dgens w2)) (set_gens h2 w2)).
    assert (A1 : agree U u1 u2).
    { intros x Ux. pose proof (A' x Ux) as Ax. destruct x; cbn in *; auto. now apply agree_set. }
    assert (S1 : shape w u1).
    { split; [reflexivity|]. split; [exact Sp|]. split; [|repeat apply conj; reflexivity]. intros j e. cbn. rewrite nth_error_set_nth.
      destruct (Nat.eqb_spec g j) as [<-|]; [|reflexivity]. rewrite Hdg. cbn. split.
      - intros [= E]. f_equal. now apply Hd.
      - intros [= E]. f_equal. now apply Hd. }
    assert (S2 : forall x, ~ W x -> same x w u1).
    { intros x Nx. destruct x; cbn; try reflexivity.
      - apply L. intros Hb. apply Nx, Wd, HV, Hb.
      - rewrite nth_error_set_nth. destruct (Nat.eqb_spec g g0) as [<-|]; [tauto|reflexivity]. }
    destruct (column d named v2) as [out|]; cbn; auto.
  Qed.
End Ops.

(** ** Any operation *)
Lemma uses_changes w o x : changes w o x -> uses w o x.
Proof.
  induction o as [o Hb|ops IH] using op_ind'.
  - destruct o; cbn; try tauto. exfalso. eapply Hb; reflexivity.
  - cbn. induction IH as [|o ops H _ IH']; [tauto|]. intros [H'|H']; [left; exact (H H')|right; exact (IH' H')].
Qed.

Lemma uses_chain w ops x : uses w (OpChain ops) x <-> exists o, In o ops /\ uses w o x.
Proof.
  cbn. induction ops as [|o ops IH]; [split; [tauto|intros (? & [] & _)]|]. split.
  - intros [H|H]; [exists o; split; [now left|exact H]|]. apply IH in H as (o' & H1 & H2). exists o'. split; [now right|exact H2].
  - intros (o' & [<-|H1] & H2); [now left|]. right. apply IH. eauto.
Qed.
Lemma changes_chain w ops x : changes w (OpChain ops) x <-> exists o, In o ops /\ changes w o x.
Proof.
  cbn. induction ops as [|o ops IH]; [split; [tauto|intros (? & [] & _)]|]. split.
  - intros [H|H]; [exists o; split; [now left|exact H]|]. apply IH in H as (o' & H1 & H2). exists o'. split; [now right|exact H2].
  - intros (o' & [<-|H1] & H2); [now left|]. right. apply IH. eauto.
Qed.

Lemma local_op (U W : object -> Prop) w0 o : (forall x, uses w0 o x -> U x) -> (forall x, changes w0 o x -> W x) -> forall d, local U W w0 (run_op o d).
Proof.
  induction o as [o Hb|ops IH] using op_ind'; intros HU HW d.
  - destruct o; cbn [run_op]; cbn [uses changes] in HU, HW;
      try apply local_transformed; try apply local_side_effect; try apply local_if_rows;
      repeat (apply local_bind; [apply local_lift|intros ?]);
      try (first [apply local_lift|apply local_ret|apply local_raise]).
    + apply local_timestamp; auto. intros l. apply local_bind; [apply local_lift|intros; apply local_lift].
    + intros w1 w2 S A'.
      pose proof (local_gens U W w0 generator (fun h => random_values h generator (df_len d) a) HU HW) as L.
      specialize (L (fun h1 h2 C Vg VU A' => random_values_alike _ _ h1 h2 generator (df_len d) a C Vg VU A')).
      pose proof (local_bind U W w0 _ (fun values => let* out := lift (column d named_as values) in lift (add_columns JLeft d out)) L) as L2.
      assert (L3 : local U W w0 (let* values := (let* gens := get w_gens in
           let* (v, gens') := lift (random_values gens generator (df_len d) a) in
           let* _ := modify (set_gens gens') in ret v) in
           (let* out := lift (column d named_as values) in lift (add_columns JLeft d out)))).
      { apply L2. intros v. apply local_bind; [apply local_lift|intros; apply local_lift]. }
      specialize (L3 w1 w2 S A'). revert L3. unfold bindM, get, lift, modify, ret.
      destruct (random_values (w_gens w1) generator (df_len d) a) as [[v1 h1]|]; destruct (random_values (w_gens w2) generator (df_len d) a) as [[v2 h2]|]; auto.
    + apply local_gen_dep; auto; [apply HU|apply HW]; now left.
    + apply local_bind; [apply local_deref_rel, HU; reflexivity|intros rl]. apply local_bind; [apply local_lift|intros; apply local_lift].
    + destruct (reserved named_as); [apply local_raise|]. apply local_bind; [|intros; apply local_lift].
      apply local_call_rel; auto.
    + apply local_bind; [apply local_deref_rel, HU; reflexivity|intros; apply local_lift].
    + destruct (reserved named_as); [apply local_raise|]. apply local_bind; [|intros; apply local_lift].
      apply local_call_rel; auto.
    + apply local_rel_add; auto.
    + apply local_rel_add_grouped; auto.
    + apply local_update_attr; auto.
    + apply local_bind; [apply local_deref_attr, HU; reflexivity|intros t]. apply local_bind; [apply local_lift|intros t'].
      apply local_put_attr; auto.
    + apply local_bind; [apply local_lookup_output; auto|intros; apply local_lift].
    + apply local_pop_update; auto.
    + apply local_force; auto.
    + destruct id_field.
      * apply local_bind; [apply local_lift|intros ids]. apply local_reset; auto.
      * apply local_reset; auto.
    + apply local_transit; auto.
    + apply local_back; auto.
    + exfalso. eapply Hb. reflexivity.
  - cbn [run_op]. apply local_run_list. intros o d' Ho. rewrite Forall_forall in IH. apply IH; [exact Ho| |].
    + intros x Hx. apply HU, uses_chain. eauto.
    + intros x Hx. apply HW, changes_chain. eauto.
Qed.

(** ** Deciding the footprints *)
Definition dec (P : Prop) : Prop := P \/ ~ P.

Lemma built_from_dec h : forall i j, dec (built_from h i j).
Proof.
  intros i. induction i as [i IH] using lt_wf_ind. intros j.
  destruct (Nat.eq_dec i j) as [<-|Nij]; [left; apply bf_self|].
  destruct (nth_error h i) as [g|] eqn:E.
  2:{ right. intros H. inversion H; subst; congruence. }
  destruct g; try (right; intros H; inversion H; subst; congruence).
  - destruct (lt_dec parent i) as [L|L].
    + destruct (IH parent L j) as [H|H]; [left; eapply bf_map; eauto|].
      right. intros B. inversion B; subst; congruence.
    + right. intros B. inversion B; subst; congruence.
  - assert (Dp : dec (parent < i /\ built_from h parent j)).
    { destruct (lt_dec parent i) as [L|L]; [destruct (IH parent L j)|]; unfold dec; tauto. }
    assert (De : dec (elem < i /\ built_from h elem j)).
    { destruct (lt_dec elem i) as [L|L]; [destruct (IH elem L j)|]; unfold dec; tauto. }
    destruct Dp as [[L B]|Np]; [left; eapply bf_bulk_parent; eauto|].
    destruct De as [[L B]|Ne]; [left; eapply bf_bulk_elem; eauto|].
    right. intros B. inversion B; subst; try congruence.
    + assert (p = parent) by congruence. subst. tauto.
    + assert (e = elem) by congruence. subst. tauto.
Qed.

Lemma object_dec (x y : object) : dec (x = y).
Proof. assert (D : {x = y} + {x <> y}) by (decide equality; apply Nat.eq_dec). destruct D; [now left|now right]. Qed.

Lemma generator_of_dec w g x : dec (generator_of w g x).
Proof.
  destruct x; try (right; intros (j & E & _); discriminate).
  destruct (built_from_dec (w_gens w) g g0) as [H|H]; [left; exists g0; auto|].
  right. intros (j & [= <-] & B). contradiction.
Qed.
Lemma dependent_of_dec w g x : dec (dependent_of w g x).
Proof.
  destruct (object_dec x (ODependent g)) as [->|N]; [left; now left|].
  destruct (nth_error (w_dgens w) g) as [[v|pr st|e]|] eqn:E;
    try (right; intros [->|(e' & E' & _)]; congruence).
  destruct (generator_of_dec w e x) as [H|H]; [left; right; eauto|].
  right. intros [->|(e' & E' & H')]; [congruence|]. assert (e' = e) by congruence. subst. contradiction.
Qed.
Lemma attribute_of_dec w p x : dec (attribute_of w p x).
Proof.
  destruct x; try (right; intros (po & name & a & _ & _ & E); discriminate).
  destruct (nth_error (w_pops w) p) as [po|] eqn:E.
  2:{ right. intros (po & name & a' & E' & _). congruence. }
  destruct (in_dec Nat.eq_dec a (map snd (p_attrs po))) as [H|H].
  - left. apply in_map_iff in H as ([name a'] & <- & H). exists po, name, a'. auto.
  - right. intros (po' & name & a' & E' & Hin & [= <-]). assert (po' = po) by congruence. subst.
    apply H. apply in_map_iff. exists (name, a). auto.
Qed.
Lemma timer_of_dec w a x : dec (timer_of w a x).
Proof.
  destruct (nth_error (w_stories w) a) as [s|] eqn:E.
  2:{ right. intros (s & E' & _). congruence. }
  destruct (object_dec x (OTimer (st_tgen s))) as [->|N]; [left; exists s; auto|].
  right. intros (s' & E' & ->). assert (s' = s) by congruence. subst. congruence.
Qed.

Lemma dec_or P Q : dec P -> dec Q -> dec (P \/ Q).
Proof. unfold dec. tauto. Qed.

Lemma changes_dec w o x : dec (changes w o x).
Proof.
  induction o as [o Hb|ops IH] using op_ind'.
  - destruct o; cbn [changes]; try (now right);
      auto using object_dec, generator_of_dec, dependent_of_dec, attribute_of_dec, timer_of_dec, dec_or.
    + destruct random; [|right; intros [[=] _]]. destruct (object_dec x OClock); unfold dec; tauto.
    + exfalso. eapply Hb. reflexivity.
  - cbn. induction IH as [|o ops H _ IH']; [now right|]. apply dec_or; [exact H|exact IH'].
Qed.

Lemma story_changes_dec w a x : dec (story_changes w a x).
Proof.
  unfold story_changes, story_objects. apply dec_or; [apply object_dec|]. apply dec_or; [apply timer_of_dec|].
  destruct (nth_error (w_stories w) a) as [s|] eqn:E.
  2:{ right. intros (s & o & E' & _). congruence. }
  assert (D : dec (changes w (OpChain (st_ops s)) x)) by apply changes_dec.
  unfold dec in D. rewrite changes_chain in D. destruct D as [(o & Ho & Hx)|N]; [left; exists s, o; auto|].
  right. intros (s' & o & E' & Ho & Hx). assert (s' = s) by congruence. subst. eauto.
Qed.

(** ** One execution of a story *)
Lemma exec_local (U W : object -> Prop) a w1 w2 :
  (forall x, story_uses w1 a x -> U x) -> (forall x, story_changes w1 a x -> W x) -> agree U w1 w2 ->
  fst (execute a w1) = fst (execute a w2) /\ agree U (snd (execute a w1)) (snd (execute a w2)) /\
  shape w1 (snd (execute a w1)) /\ (forall x, ~ W x -> same x w1 (snd (execute a w1))).
Proof.
  intros HU HW A'.
  assert (Ua : U (OStory a)) by (apply HU; now left). assert (Wa : W (OStory a)) by (apply HW; now left).
  pose proof (A' _ Ua) as E. cbn in E. destruct (nth_error (w_stories w1) a) as [s|] eqn:Es.
  2:{ unfold execute, bindM, deref. rewrite E, Es. cbn. split; [reflexivity|]. split; [exact A'|]. split; [apply shape_refl|]. intros; apply same_refl. }
  assert (L : local U W w1 (
    let (active, inactive) := active_inactive_ids s in
    let* all_logs :=
      match active with
      | [] => ret []
      | _ =>
          let* (_, l) := run_chain (st_ops s) (init_story_data (st_field s) active) in
          let* _ := if st_auto s then story_reset a (Some active) else story_tick a active in
          ret l
      end in
    let* _ := story_tick a inactive in
    ret all_logs)).
  { destruct (active_inactive_ids s) as [active inactive]. apply local_bind.
    2:{ intros l. apply local_bind; [now apply local_tick|intros; apply local_ret]. }
    destruct active as [|i active]; [apply local_ret|]. apply local_bind.
    - apply (local_op U W w1 (OpChain (st_ops s))).
      + intros x Hx. apply uses_chain in Hx as (o & Ho & Hx). apply HU. right. right. exists s, o. auto.
      + intros x Hx. apply changes_chain in Hx as (o & Ho & Hx). apply HW. right. right. exists s, o. auto.
    - intros [d l]. apply local_bind; [|intros; apply local_ret]. destruct (st_auto s); [|now apply local_tick].
      apply local_reset; auto; intros x Hx; [apply HU|apply HW]; right; now left. }
  match type of L with local _ _ _ ?m => set (rest := m) in L end.
  assert (Ex : forall w, nth_error (w_stories w) a = Some s -> execute a w = rest (snd (put_story a (with_forced s []) w))).
  { intros w Hw. unfold execute, bindM at 1. unfold deref. rewrite Hw. unfold rest.
    destruct (active_inactive_ids s) as [active inactive]. reflexivity. }
  rewrite (Ex w1 Es), (Ex w2 E).
  destruct (put_story_local U W a s (with_forced s []) w1 w2 Wa Es eq_refl A') as (F1 & F2 & F3 & F4).
  destruct (L _ _ F3 F2) as (G1 & G2 & G3 & G4).
  split; [exact G1|]. split; [exact G2|]. split; [exact (shape_trans _ _ _ F3 G3)|].
  intros x Hx. exact (same_trans _ _ _ _ (F4 x Hx) (G4 x Hx)).
Qed.

(** ** Independent stories commute *)
Lemma nth_error_ext {A} : forall l1 l2 : list A, (forall i, nth_error l2 i = nth_error l1 i) -> l1 = l2.
Proof.
  induction l1 as [|x l1 IH]; intros [|y l2] H; [reflexivity|specialize (H 0); discriminate..|].
  pose proof (H 0) as H0. cbn in H0. injection H0 as ->. f_equal. apply IH. intros i. exact (H (S i)).
Qed.
Lemma world_ext w1 w2 : w_prng w1 = w_prng w2 -> (forall x, same x w1 w2) -> w1 = w2.
Proof.
  intros Hp H. destruct w1, w2. cbn in Hp. subst.
  pose proof (H OClock) as H1. pose proof (H OSeeder) as H2. pose proof (H OPopulationNames) as H3. pose proof (H OGeneratorNames) as H4.
  cbn in H1, H2, H3, H4. subst. f_equal; apply nth_error_ext; intros i.
  - exact (H (OAttribute i)).
  - exact (H (ORelationship i)).
  - exact (H (OGenerator i)).
  - exact (H (ODependent i)).
  - exact (H (OTimer i)).
  - exact (H (OPopulation i)).
  - exact (H (OStory i)).
Qed.

(** footprints only depend on the shape *)
Lemma shape_sym w0 w : shape w0 w -> shape w w0.
Proof.
  intros (A0 & A1 & A2 & A3 & A4 & A5). repeat apply conj; [congruence| |intros g e; symmetry; apply A2|congruence|congruence|congruence].
  intros j. now rewrite A1.
Qed.
Lemma built_from_shape h1 h2 i j : same_parents h1 h2 -> built_from h1 i j -> built_from h2 i j.
Proof.
  intros S H. induction H as [i|i p f j E L H IH|i p e j E L H IH|i p e j E L H IH]; [apply bf_self|..];
    specialize (S i); rewrite E in S; destruct (nth_error h2 i) as [g|] eqn:E2; try discriminate; cbn in S;
    destruct g; try discriminate; injection S as S; try injection S as S; subst.
  - eapply bf_map; eauto.
  - eapply bf_bulk_parent; eauto.
  - eapply bf_bulk_elem; eauto.
Qed.
Lemma generator_of_shape w w' g x : shape w w' -> generator_of w g x -> generator_of w' g x.
Proof. intros S (j & -> & H). exists j. split; [reflexivity|]. eapply built_from_shape; [apply S|exact H]. Qed.
Lemma dependent_of_shape w w' g x : shape w w' -> dependent_of w g x -> dependent_of w' g x.
Proof.
  intros S [->|(e & E & H)]; [now left|]. right. exists e. split; [now apply S|]. eapply generator_of_shape; eauto.
Qed.
Lemma attribute_of_shape w w' p x : shape w w' -> attribute_of w p x -> attribute_of w' p x.
Proof.
  intros (_ & _ & _ & S & _) (po & n & a & E & Hin & ->). specialize (S p). rewrite E in S. cbn in S.
  destruct (nth_error (w_pops w') p) as [po'|] eqn:E'; [|discriminate]. injection S as S. exists po', n, a. now rewrite S.
Qed.
Lemma timer_of_shape w w' a x : shape w w' -> timer_of w a x -> timer_of w' a x.
Proof.
  intros (_ & _ & _ & _ & S & _) (s & E & ->). specialize (S a). rewrite E in S. cbn in S.
  destruct (nth_error (w_stories w') a) as [s'|] eqn:E'; [|discriminate]. injection S as S _. exists s'. now rewrite S.
Qed.
Lemma changes_shape w w' o x : shape w w' -> changes w o x -> changes w' o x.
Proof.
  intros S. induction o as [o Hb|ops IH] using op_ind'.
  - destruct o; cbn [changes]; auto;
      try solve [eauto using generator_of_shape, dependent_of_shape, attribute_of_shape, timer_of_shape];
      try (intros [H|H]; [now left|right]);
      eauto using generator_of_shape, dependent_of_shape, attribute_of_shape, timer_of_shape.
    exfalso. eapply Hb. reflexivity.
  - cbn. induction IH as [|o ops H _ IH']; [tauto|]. intros [H'|H']; [left; exact (H H')|right; exact (IH' H')].
Qed.

Lemma stories_commute a b w :
  (forall x, story_changes w a x -> ~ story_uses w b x) -> (forall x, story_changes w b x -> ~ story_uses w a x) ->
  let wa := snd (execute a w) in let wb := snd (execute b w) in
  fst (execute a wb) = fst (execute a w) /\ fst (execute b wa) = fst (execute b w) /\ snd (execute a wb) = snd (execute b wa).
Proof.
  intros Hab Hba wa wb.
  assert (Ca : forall x, story_changes w a x -> story_uses w a x).
  { intros x [H|[H|(s & o & H1 & H2 & H3)]]; [now left|right; now left|]. right. right. exists s, o. auto using uses_changes. }
  assert (Cb : forall x, story_changes w b x -> story_uses w b x).
  { intros x [H|[H|(s & o & H1 & H2 & H3)]]; [now left|right; now left|]. right. right. exists s, o. auto using uses_changes. }
  assert (La : forall x, ~ story_changes w a x -> same x w wa).
  { apply (exec_local (story_uses w a) (story_changes w a) a w w); auto. intros x _. apply same_refl. }
  assert (Lb : forall x, ~ story_changes w b x -> same x w wb).
  { apply (exec_local (story_uses w b) (story_changes w b) b w w); auto. intros x _. apply same_refl. }
  destruct (exec_local (fun x => ~ story_changes w b x) (story_changes w a) a w wb) as (A1 & A2 & A3 & A4); auto.
  { intros x Hx Hc. exact (Hba x Hc Hx). }
  destruct (exec_local (fun x => ~ story_changes w a x) (story_changes w b) b w wa) as (B1 & B2 & B3 & B4); auto.
  { intros x Hx Hc. exact (Hab x Hc Hx). }
  split; [congruence|]. split; [congruence|].
  (* b run in wa leaves alone what it leaves alone in w *)
  assert (Sb : story_changes wa b = story_changes wa b) by reflexivity. clear Sb.
  assert (Ob : nth_error (w_stories wa) b = nth_error (w_stories w) b).
  { apply (La (OStory b)). intros H. apply (Hab _ H). now left. }
  assert (Oa : nth_error (w_stories wb) a = nth_error (w_stories w) a).
  { apply (Lb (OStory a)). intros H. apply (Hba _ H). now left. }
  assert (Fb : forall x, story_changes wa b x -> story_changes w b x).
  { intros x [H|[H|(s & o & H1 & H2 & H3)]]; [now left|right; left|right; right].
    - eapply timer_of_shape; [apply shape_sym; exact A3|exact H].
    - exists s, o. rewrite <- Ob. split; [exact H1|]. split; [exact H2|]. eapply changes_shape; [apply shape_sym; exact A3|exact H3]. }
  assert (Fa : forall x, story_changes wb a x -> story_changes w a x).
  { intros x [H|[H|(s & o & H1 & H2 & H3)]]; [now left|right; left|right; right].
    - eapply timer_of_shape; [apply shape_sym; exact B3|exact H].
    - exists s, o. rewrite <- Oa. split; [exact H1|]. split; [exact H2|]. eapply changes_shape; [apply shape_sym; exact B3|exact H3]. }
  assert (Lab : forall x, ~ story_changes w b x -> same x wa (snd (execute b wa))).
  { intros x Nx. apply (exec_local (fun _ => True) (story_changes w b) b wa wa); auto. intros y _. apply same_refl. }
  assert (Lba : forall x, ~ story_changes w a x -> same x wb (snd (execute a wb))).
  { intros x Nx. apply (exec_local (fun _ => True) (story_changes w a) a wb wb); auto. intros y _. apply same_refl. }
  assert (Pa : shape wa (snd (execute b wa))).
  { apply (exec_local (fun _ => True) (fun _ => True) b wa wa); auto. intros y _. apply same_refl. }
  assert (Pb : shape wb (snd (execute a wb))).
  { apply (exec_local (fun _ => True) (fun _ => True) a wb wb); auto. intros y _. apply same_refl. }
  apply world_ext.
  - destruct A3 as (E1 & _), B3 as (E2 & _), Pa as (E3 & _), Pb as (E4 & _). fold wa in E1. fold wb in E2. congruence.
  - intros x. destruct (story_changes_dec w b x) as [Hx|Nx].
    + assert (Nx : ~ story_changes w a x) by (intros H; apply (Hab x H); auto).
      eapply same_trans; [apply same_sym, Lba, Nx|]. exact (B2 x Nx).
    + eapply same_trans; [apply same_sym; exact (A2 x Nx)|]. exact (Lab x Nx).
Qed.
