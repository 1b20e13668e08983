(** What the records of the logs tell is true. *)
From Verif Require CircusFacts.
From Verif Require Import Base BaseFacts Rng Utils UtilsFacts Relationship RelationshipFacts SpecRelationship RelationshipProps Frame Gens Clock SpecClock ClockProps
  Attribute SpecAttribute AttributeFacts World Story Ops OpsFacts Fs Helpers HelpersFacts Circus SpecStory StoryFacts StoryExec StoryProps SpecOps OpsProps OpsColumns OpsMore
  SpecWorld WorldProps SpecPopulation GensKept SpecLocal LocalFacts LocalOps LocalCalls CircusProps GeographyLog SpecCircus SpecSupply SupplyFacts SupplyProps
  SpecLedger LedgerProps SpecRecords RecordsGens.
From Coq Require Import Permutation.

Definition same_dgen (d d' : dgen) : Prop :=
  match d, d' with
  | DConst v, DConst v' => v = v'
  | DTrigger p _, DTrigger p' _ => p = p'
  | DBulk e, DBulk e' => e = e'
  | _, _ => False
  end.
Definition dgens_kept (h h' : list dgen) : Prop :=
  length h' = length h /\ forall i g, nth_error h i = Some g -> exists g', nth_error h' i = Some g' /\ same_dgen g g'.
Lemma same_dgen_refl d : same_dgen d d. Proof. destruct d; reflexivity. Qed.
Lemma same_dgen_trans a b c : same_dgen a b -> same_dgen b c -> same_dgen a c.
Proof. destruct a, b; cbn; try easy; destruct c; cbn; try easy; congruence. Qed.
Lemma dgens_kept_refl h : dgens_kept h h.
Proof. split; [reflexivity|]. intros i g H. exists g. split; [exact H|apply same_dgen_refl]. Qed.
Lemma dgens_kept_trans a b c : dgens_kept a b -> dgens_kept b c -> dgens_kept a c.
Proof.
  intros [L1 H1] [L2 H2]. split; [congruence|]. intros i g H. destruct (H1 _ _ H) as (g1 & E1 & S1). destruct (H2 _ _ E1) as (g2 & E2 & S2).
  exists g2. split; [exact E2|eapply same_dgen_trans; eauto].
Qed.
Lemma dgen_step_same h d obs vs d' h' : dgen_generate h d obs = Ok (vs, d', h') -> same_dgen d d'.
Proof.
  destruct d; cbn [dgen_generate].
  - now intros [= _ <- _].
  - destruct (draws _ _ _). intros H. apply bind_ok in H as (ps & _ & H). now injection H as _ <- _.
  - intros H. apply bind_ok in H as (ns & _ & H). apply bind_ok in H as ([vss h1] & _ & H). now injection H as _ <- _.
Qed.

(** The items of every relationship. *)
Definition same_items (w w' : world) (r : nat) : Prop :=
  forall rel, nth_error (w_rels w) r = Some rel -> exists rel', nth_error (w_rels w') r = Some rel' /\ stored rel' = stored rel.
Lemma same_items_refl w r : same_items w w r. Proof. intros rel H. eauto. Qed.
Lemma same_items_trans a b c r : same_items a b r -> same_items b c r -> same_items a c r.
Proof. intros H1 H2 rel H. destruct (H1 _ H) as (r1 & E1 & S1). destruct (H2 _ E1) as (r2 & E2 & S2). exists r2. split; congruence. Qed.
Lemma same_same_items w w' r : same (ORelationship r) w w' -> same_items w w' r.
Proof. cbn. intros E rel H. exists rel. split; [congruence|reflexivity]. Qed.

Lemma changes_part w o x : changes w o x -> exists o', part_of o' o /\ (forall ops, o' <> OpChain ops) /\ changes w o' x.
Proof.
  induction o as [o Hb|ops IH] using op_ind'; intros H.
  - exists o. split; [constructor|]. auto.
  - cbn [changes] in H. induction ops as [|o ops IHo]; [destruct H|]. inversion IH as [|? ? Ho Hr]; subst.
    destruct H as [H|H].
    + destruct (Ho H) as (o' & P & N & C). exists o'. split; [|auto]. econstructor; [now left|exact P].
    + destruct (IHo Hr H) as (o' & P & N & C). exists o'. split; [|auto].
      inversion P as [|ops' o1 Hin P1]; subst; [now specialize (N ops)|]. econstructor; [right; exact Hin|exact P1].
Qed.
Lemma part_changes w o o' x : part_of o' o -> changes w o' x -> changes w o x.
Proof.
  induction 1 as [|ops o1 Hin P IH]; intros C; [exact C|]. specialize (IH C). cbn [changes].
  induction ops as [|o2 ops IHo]; [destruct Hin|]. destruct Hin as [->|Hin]; [left; exact IH|right; exact (IHo Hin)].
Qed.

(** One operation. *)
Definition op_effect (o : op) (w w' : world) : Prop :=
  dgens_kept (w_dgens w) (w_dgens w') /\
  (forall r, (forall o', part_of o' o -> ~ moves_items r o') -> same_items w w' r) /\
  Forall reachable (w_rels w') /\ length (w_rels w') = length (w_rels w).

Lemma call_one_items r from named oto pop discard wt d w d' l w' : run_op (OpSelectOne r from named oto pop discard wt) d w = (Ok (d', l), w') ->
  exists rel rel', nth_error (w_rels w) r = Some rel /\ w' = set_rels (set_nth r rel' (w_rels w)) w /\ (pop = false -> stored rel' = stored rel).
Proof.
  cbn [run_op]. intros H. unfold transformed in H. mstep H. injection H as <- <- <-. mstep E. apply lift_ok in E0 as [_ ->].
  destruct (reserved named); [discriminate|]. mstep E. unfold call_select_one in E0.
  mstep E0. apply deref_ok in E1 as [E1 ->]. mstep E0. destruct x3 as [rows rel']. apply lift_ok in E2 as [E2 ->]. mstep E0. injection E3 as _ <-.
  injection E0 as _ <-. apply lift_ok in E as [_ ->]. exists x2, rel'. split; [exact E1|]. split; [reflexivity|]. intros ->. eapply select_one_keeps; eauto.
Qed.
Lemma call_many_items r from named qty pop discard d w d' l w' : run_op (OpSelectMany r from named qty pop discard) d w = (Ok (d', l), w') ->
  exists rel rel', nth_error (w_rels w) r = Some rel /\ w' = set_rels (set_nth r rel' (w_rels w)) w /\ (pop = false -> stored rel' = stored rel).
Proof.
  cbn [run_op]. intros H. unfold transformed in H. mstep H. injection H as <- <- <-. mstep E. apply lift_ok in E0 as [_ ->].
  mstep E. apply lift_ok in E0 as [_ ->]. mstep E. apply lift_ok in E0 as [_ ->].
  destruct (reserved named); [discriminate|]. mstep E. unfold call_select_many in E0.
  mstep E0. apply deref_ok in E1 as [E1 ->]. mstep E0. destruct x5 as [rows rel']. apply lift_ok in E2 as [E2 ->]. mstep E0. injection E3 as _ <-.
  injection E0 as _ <-. apply lift_ok in E as [_ ->]. exists x4, rel'. split; [exact E1|]. split; [reflexivity|]. intros ->. eapply select_many_keeps; eauto.
Qed.

Lemma op_effect_base o d w d' l w' : (forall ops, o <> OpChain ops) -> run_op o d w = (Ok (d', l), w') ->
  Forall reachable (w_rels w) -> op_effect o w w'.
Proof.
  intros Hb H R.
  assert (R' : Forall reachable (w_rels w') /\ length (w_rels w') = length (w_rels w)).
  { set (P := fun w w' : world => (Forall reachable (w_rels w) -> Forall reachable (w_rels w')) /\ length (w_rels w') = length (w_rels w)).
    assert (Same : forall w w', w_rels w' = w_rels w -> P w w') by (intros a b E; split; [intros K|]; now rewrite E).
    assert (K : P w (snd (run_op o d w))); [|rewrite H in K; split; [now apply K|apply K]].
    apply (run_op_keeps P (fun _ => True) (fun _ => True) (fun _ => True)); auto.
    - intros a b c [H1 L1] [H2 L2]. split; [auto|congruence].
    - intros v i r r' Hr St. cbn [w_rels set_rels]. split; [|apply GensProps.set_nth_length]. intros K. apply Forall_set_nth; [|exact K].
      eapply rel_step_reachable; [|exact St]. eapply Forall_nth_error; eauto.
    - intros a ids _ v. unfold story_force, bindM, deref. destruct (nth_error (w_stories v) a) as [s|]; [|now apply Same].
      destruct (force_act_next s ids) as [q s']. now apply Same.
    - intros a ids _ v. unfold story_reset, bindM, deref, lift. destruct (nth_error (w_stories v) a) as [s|]; [|now apply Same].
      destruct (nth_error (w_tgens v) (st_tgen s)) as [g|]; [|now apply Same]. destruct (reset_timers s g ids) as [[s' g']|e]; now apply Same.
    - intros a ids st _ v. unfold story_transit, bindM, deref, lift. destruct (nth_error (w_stories v) a) as [s|]; [|now apply Same].
      destruct (transit_to_state s ids st) as [s'|e]; now apply Same. }
  assert (Sm : forall x, ~ changes w o x -> same x w w').
  { intros x N. pose proof (op_same o d w x N) as K. now rewrite H in K. }
  assert (Gn : forall v g i, ~ generator_of v g (ODependent i) /\ ~ generator_of v g (ORelationship i)).
  { intros v g i. split; intros (j & E & _); discriminate. }
  assert (An : forall v p i, ~ attribute_of v p (ODependent i) /\ ~ attribute_of v p (ORelationship i)).
  { intros v p i. split; intros (po & n & a & _ & _ & E); discriminate. }
  assert (Tn : forall v a i, ~ timer_of v a (ODependent i) /\ ~ timer_of v a (ORelationship i)).
  { intros v a i. split; intros (s & _ & E); discriminate. }
  assert (Ld : (forall i, nth_error (w_dgens w') i = nth_error (w_dgens w) i) -> dgens_kept (w_dgens w) (w_dgens w')).
  { intros E. split.
    - destruct (Nat.lt_trichotomy (length (w_dgens w')) (length (w_dgens w))) as [L|[L|L]]; [|exact L|];
        exfalso; apply nth_error_Some in L; apply L; [rewrite <- E|rewrite E]; now apply nth_error_None.
    - intros i g0 Hi. exists g0. rewrite E. split; [exact Hi|apply same_dgen_refl]. }
  split; [|split; [|auto]].
  - destruct o; try solve [
      apply Ld; intros i; apply (Sm (ODependent i)); cbn [changes]; intros C;
      first [contradiction | discriminate | (destruct C; discriminate) | (now apply Gn in C) | (destruct C as [C|C]; [discriminate|]; first [now apply Gn in C|now apply An in C|now apply Tn in C])]].
    + cbn [run_op] in H. unfold transformed in H. mstep H. injection H as <- <- <-. mstep E. apply lift_ok in E0 as [_ ->].
      mstep E. apply deref_ok in E0 as [E0 ->]. mstep E. injection E1 as <- <-. mstep E. destruct x2 as [[vs dg'] gs']. apply lift_ok in E1 as [E1 ->].
      mstep E. injection E2 as _ <-. mstep E. injection E2 as <- <-. mstep E. injection E2 as _ <-. mstep E. apply lift_ok in E2 as [_ ->]. apply lift_ok in E as [_ ->].
      cbn [w_dgens set_dgens set_gens]. split; [apply GensProps.set_nth_length|]. intros i g0 Hi. rewrite nth_error_set_nth. destruct (Nat.eqb_spec generator i) as [->|_].
      * rewrite Hi. exists dg'. split; [reflexivity|]. assert (g0 = x1) by congruence. subst. eapply dgen_step_same; eauto.
      * exists g0. split; [exact Hi|apply same_dgen_refl].
    + exfalso. eapply Hb. reflexivity.
  - intros r Hm. specialize (Hm o (part_self o)).
    destruct o; try solve [
      apply same_same_items, (Sm (ORelationship r)); cbn [changes]; intros C;
      first [contradiction | discriminate | (destruct C; discriminate) | (now apply Gn in C) | (injection C as C; subst; now cbn in Hm) | (destruct C as [C|(e & _ & C)]; [discriminate|now apply Gn in C]) | (destruct C as [C|C]; [discriminate|]; first [now apply Gn in C|now apply An in C|now apply Tn in C])]].
    + apply call_one_items in H as (rl & rl' & Hr & -> & K). destruct (Nat.eqb_spec rel r) as [->|N].
      * intros rel0 H0. cbn [w_rels set_rels]. rewrite nth_error_set_nth, Nat.eqb_refl, H0. exists rl'. split; [reflexivity|].
        assert (rel0 = rl) by congruence. subst. apply K. cbn [moves_items] in Hm. destruct pop; [tauto|reflexivity].
      * apply same_same_items. cbn. rewrite nth_error_set_nth. now rewrite (proj2 (Nat.eqb_neq _ _) N).
    + apply call_many_items in H as (rl & rl' & Hr & -> & K). destruct (Nat.eqb_spec rel r) as [->|N].
      * intros rel0 H0. cbn [w_rels set_rels]. rewrite nth_error_set_nth, Nat.eqb_refl, H0. exists rl'. split; [reflexivity|].
        assert (rel0 = rl) by congruence. subst. apply K. cbn [moves_items] in Hm. destruct pop; [tauto|reflexivity].
      * apply same_same_items. cbn. rewrite nth_error_set_nth. now rewrite (proj2 (Nat.eqb_neq _ _) N).
    + exfalso. eapply Hb. reflexivity.
Qed.


Lemma op_effects o : forall d w d' l w', run_op o d w = (Ok (d', l), w') -> Forall reachable (w_rels w) -> op_effect o w w'.
Proof.
  induction o as [o Hb|ops IH] using op_ind'; intros d w d' l w' H R; [now apply (op_effect_base o d w d' l w')|].
  cbn [run_op] in H.
  assert (G : forall ops', incl ops' ops -> forall d l0 w d' l w', run_list run_op ops' d l0 w = (Ok (d', l), w') ->
              Forall reachable (w_rels w) -> op_effect (OpChain ops) w w'); [|exact (G ops (incl_refl _) _ _ _ _ _ _ H R)].
  clear d w d' l w' H R. induction ops' as [|o ops' IHo]; intros Hi d l0 w d' l w' H R.
  - cbn [run_list] in H. injection H as _ _ <-. split; [apply dgens_kept_refl|]. split; [intros; apply same_items_refl|auto].
  - apply run_list_step in H as (d1 & l1 & w1 & all & H1 & M & H).
    assert (Ho : In o ops) by (apply Hi; now left).
    destruct (proj1 (Forall_forall _ _) IH o Ho _ _ _ _ _ H1 R) as (A1 & A2 & A3 & A4).
    destruct (IHo (fun x Hx => Hi x (or_intror Hx)) _ _ _ _ _ _ H A3) as (B1 & B2 & B3 & B4).
    split; [eapply dgens_kept_trans; eauto|]. split; [|split; [exact B3|congruence]].
    intros r Hm. eapply same_items_trans; [|apply B2; exact Hm]. apply A2. intros o' P. apply Hm. econstructor; eauto.
Qed.

(** ** A function applied row by row *)
Lemma applied_rows src named g k d w d' l w' : run_op (OpApply src named g) d w = (Ok (d', l), w') -> row_by_row src (length named) g k ->
  (forall c, In c named -> ~ In c (df_cols d)) ->
  df_cols d' = df_cols d ++ named /\
  df_rows d' = map (fun row => (fst row, snd row ++ k (map (cell (df_cols d) (snd row)) src))) (df_rows d) /\
  forall row, In row (df_rows d) -> length (k (map (cell (df_cols d) (snd row)) src)) = length named.
Proof.
  intros H Hk Hf. cbn [run_op] in H. unfold transformed in H. mstep H. injection H as <- <- <-. mstep E. apply lift_ok in E0 as [E0 ->]. apply lift_ok in E as [E ->].
  unfold apply_output in E0. apply bind_ok in E0 as (sel & Es & E0). apply bind_ok in E0 as (out & Eo & E0).
  apply select_cols_cells in Es as [Ec Er]. destruct (Hk sel out Ec Eo) as (Lc & Rw & Ln). destruct (negb _); [discriminate|]. injection E0 as <-.
  rewrite rename_all in E by exact Lc. apply merge_index_ok in E as (_ & Nr & Hc & kept & _ & Hl & F). cbn [df_cols df_rows] in *. specialize (Hl eq_refl). subst kept.
  split; [rewrite Hc, !map_suffixed_fresh; [reflexivity| |]; intros c H1 H2; eapply Hf; eauto|].
  rewrite Er in Rw, Ln. rewrite map_map in Rw. cbn [fst snd] in Rw.
  split.
  - unfold df_index in Nr. cbn [df_rows] in Nr. rewrite Rw in F, Nr. clear - F Nr.
    set (h := fun row : val * list val => k (map (cell (df_cols d) (snd row)) src)) in *.
    assert (G : forall rows, incl rows (df_rows d) -> forall rows', Forall2 (fun row row' : val * list val => fst row' = fst row /\
       exists extra, snd row' = snd row ++ extra /\ (dget (fst row) (map (fun x => (fst x, h x)) (df_rows d)) = Some extra \/
         dget (fst row) (map (fun x => (fst x, h x)) (df_rows d)) = None /\ extra = repeat VNA (length named))) rows rows' ->
       rows' = map (fun row => (fst row, snd row ++ h row)) rows).
    { intros rows Hi rows' F'. induction F' as [|row row' rows rows' (E1 & extra & E2 & E3) F' IH]; [reflexivity|]. cbn [map]. rewrite <- IH by (intros y Hy; apply Hi; now right). f_equal.
      assert (E : dget (fst row) (map (fun x => (fst x, h x)) (df_rows d)) = Some (h row)).
      { apply In_dget; [exact Nr|]. apply in_map_iff. exists row. split; [reflexivity|apply Hi; now left]. }
      rewrite E in E3. destruct E3 as [[= <-]|[? _]]; [|discriminate]. destruct row'; cbn in *; congruence. }
    apply G; [apply incl_refl|exact F].
  - intros row Hr. apply (Ln (fst row, map (cell (df_cols d) (snd row)) src)). apply in_map_iff. exists row. auto.
Qed.

Section Held.
  Context (w0 : world) (still_r still_a : nat -> Prop).

  Record held (w : world) : Prop := mkHeld {
    hd_shape : shape w0 w;
    hd_static : stories_rel (fun _ => static) w0 w;
    hd_gens : keptg w0 w;
    hd_dgens : dgens_kept (w_dgens w0) (w_dgens w);
    hd_items : forall r, still_r r -> same_items w0 w r;
    hd_reach : Forall reachable (w_rels w);
    hd_rels : length (w_rels w) = length (w_rels w0);
    hd_attrs : forall x, still_a x -> same (OAttribute x) w0 w;
    hd_step : Clock.c_step (w_clock w) = Clock.c_step (w_clock w0)
  }.

  Definition of_story (o : op) : Prop := exists a s, nth_error (w_stories w0) a = Some s /\ In o (st_ops s).

  Lemma held_start : Forall reachable (w_rels w0) -> held w0.
  Proof.
    intros R. constructor; try assumption; try reflexivity.
    - apply shape_refl.
    - apply sr_refl. intros; apply static_refl.
    - apply kg_refl.
    - apply dgens_kept_refl.
    - intros. apply same_items_refl.
  Qed.

  Lemma chain_one o d w : snd (run_chain [o] d w) = snd (run_op o d w).
  Proof.
    unfold run_chain. cbn [run_list]. unfold bindM. destruct (run_op o d w) as [[[d1 l1]|e] w1]; [|reflexivity].
    unfold lift. destruct (merge_dicts _ _); reflexivity.
  Qed.
  Lemma op_static o d w : stories_rel (fun _ => static) w (snd (run_op o d w)).
  Proof. rewrite <- chain_one. apply chain_static. Qed.
  Lemma op_clock o d w : CircusFacts.shape w (snd (run_op o d w)).
  Proof. rewrite <- chain_one. apply CircusFacts.chain_shape. Qed.
  Lemma op_kg o d w : keptg w (snd (run_op o d w)).
  Proof. rewrite <- chain_one. apply chain_kg. Qed.
  Definition left_still (o : op) : Prop :=
    (forall r, still_r r -> forall o', part_of o' o -> ~ moves_items r o') /\ (forall x, still_a x -> ~ changes w0 o (OAttribute x)).
  Lemma op_held o d w d' l w' : left_still o -> held w -> run_op o d w = (Ok (d', l), w') ->
    held w' /\ c_date (w_clock w') = c_date (w_clock w).
  Proof.
    intros [Lr La] S H. destruct (op_effects o d w d' l w' H (hd_reach _ S)) as (E1 & E2 & E3 & E4).
    pose proof (op_clock o d w) as Ck. pose proof (op_shape o d w) as Sh. pose proof (op_static o d w) as St.
    pose proof (op_kg o d w) as Kg.
    rewrite H in Ck, Sh, St, Kg. cbn [snd] in Ck, Sh, St, Kg. destruct Ck as (Cd & Cs & _). split; [|exact Cd]. constructor.
    - eapply shape_trans; [apply S|exact Sh].
    - eapply (sr_trans (fun _ => static)); [|apply S|exact St]. intros; eapply static_trans; eauto.
    - eapply kg_trans; [apply S|exact Kg].
    - eapply dgens_kept_trans; [apply S|exact E1].
    - intros r Hr. eapply same_items_trans; [now apply S|]. apply E2. intros o' P. eapply Lr; eauto.
    - exact E3.
    - rewrite E4. apply S.
    - intros x Hx. eapply same_trans; [now apply S|]. pose proof (op_same o d w (OAttribute x)) as K. rewrite H in K. apply K.
      intros C. eapply La; eauto. eapply changes_shape; [apply shape_sym, S|exact C].
    - rewrite Cs. apply S.
  Qed.

  (** ** Rows *)
  Definition agrees (cols : list string) (r r' : record) : Prop := forall c, In c cols -> r' c = r c.
  Definition row_of (d : df) (row : val * list val) : record := cell (df_cols d) (snd row).

  (** The columns an operation adds. *)
  Definition brings (o : op) (new : list string) : Prop :=
    adds o new \/ exists r from named, o = OpSelectAll r from named /\ new = [named].

  Lemma restricts_rows d d' kept : restricts d d' kept -> df_cols d <> [] -> forall row', In row' (df_rows d') ->
    exists row, In row (df_rows d) /\ agrees (df_cols d) (row_of d row) (row_of d' row').
  Proof.
    clear still_r still_a. intros (Sb & _ & Hc) Ne row' Hin. apply In_nth_error in Hin as [k Hk].
    destruct (nth_error kept k) as [row|] eqn:Ek.
    - exists row. split; [eapply sublist_In; [exact Sb|]; eapply nth_error_In; eauto|]. intros c Hin. destruct (Hc c Hin) as [_ E].
      unfold column_of in E. apply (f_equal (fun l => nth_error l k)) in E. rewrite !nth_error_map, Hk, Ek in E. cbn in E. unfold row_of. congruence.
    - destruct (df_cols d) as [|c0 cs] eqn:Ed; [tauto|].
      exfalso. destruct (Hc c0 (or_introl eq_refl)) as [_ E]. unfold column_of in E. apply (f_equal (fun l => nth_error l k)) in E.
      rewrite !nth_error_map, Hk, Ek in E. discriminate.
  Qed.

  Lemma select_all_rows r from named d w d' l w' : run_op (OpSelectAll r from named) d w = (Ok (d', l), w') -> rectangular d -> ~ In named (df_cols d) ->
    df_cols d' = df_cols d ++ [named] /\
    forall row', In row' (df_rows d') -> exists row v, In row (df_rows d) /\ row' = (fst row, snd row ++ [v]).
  Proof.
    clear still_r still_a. intros H R Hn. cbn [run_op] in H. unfold transformed in H. mstep H. injection H as <- <- <-. mstep E. apply deref_ok in E0 as [_ ->].
    apply lift_ok in E as [E _]. unfold select_all in E. destruct (reserved named); [discriminate|]. destruct (negb _); [discriminate|].
    apply bind_ok in E as (i & _ & E). injection E as <-. cbn [df_cols df_rows]. split.
    - rewrite map_suffixed_fresh by (intros c Hc [<-|[]]; tauto). now rewrite suffixed_fresh.
    - intros row' Hin. apply in_flat_map in Hin as (f & _ & Hin). destruct (dget f _) as [tos|]; [|destruct Hin].
      apply in_map_iff in Hin as (row & <- & Hin). apply filter_In in Hin as [Hin _]. eauto.
  Qed.

  Lemma brings_rows o new d w d' l w' : brings o new -> run_op o d w = (Ok (d', l), w') -> rectangular d -> NoDup new ->
    (forall c, In c new -> ~ In c (df_cols d)) -> df_cols d <> [] ->
    df_cols d' = df_cols d ++ new /\ rectangular d' /\
    forall row', In row' (df_rows d') -> exists row, In row (df_rows d) /\ agrees (df_cols d) (row_of d row) (row_of d' row').
  Proof.
    clear still_r still_a. intros [A|(r & from & named & -> & ->)] H R Nn Hf Ne.
    - destruct (other_restricts _ _ _ _ _ _ _ A H R Nn Hf) as (Hc & kept & K & _). split; [exact Hc|]. split; [apply K|]. now apply restricts_rows with kept.
    - assert (Hn : ~ In named (df_cols d)) by (apply Hf; now left).
      destruct (select_all_rows _ _ _ _ _ _ _ _ H R Hn) as (Hc & Hr). split; [exact Hc|]. destruct R as [N L]. split.
      + split.
        * rewrite Hc. apply NoDup_app_parts; [exact N|exact Nn|]. intros x Hx Hx'. exact (Hf x Hx' Hx).
        * intros row' Hin. destruct (Hr _ Hin) as (row & v & Hrow & ->). cbn [snd]. rewrite Hc, !app_length, (L row Hrow). reflexivity.
      + intros row' Hin. destruct (Hr _ Hin) as (row & v & Hrow & ->). exists row. split; [exact Hrow|].
        intros c Hin'. unfold row_of. rewrite Hc. cbn [snd]. apply cell_app_l; [exact Hin'|now apply L].
  Qed.

  Lemma cells_row d d' name kept vs : adds_cells d d' name kept vs -> rectangular d -> ~ In name (df_cols d) ->
    forall row', In row' (df_rows d') -> exists row v, In (row, v) (combine kept vs) /\ In row (df_rows d) /\
      agrees (df_cols d) (row_of d row) (row_of d' row') /\ row_of d' row' name = v.
  Proof.
    intros (Hc & Sb & Hl & Hr) [_ L] Hn row' Hin. rewrite Hr in Hin. apply in_map_iff in Hin as ([row v] & <- & Hin).
    assert (Hrow : In row (df_rows d)) by (eapply sublist_In; [exact Sb|]; eapply in_combine_l; eauto).
    exists row, v. split; [exact Hin|]. split; [exact Hrow|]. unfold row_of. rewrite Hc. cbn [fst snd]. split.
    - intros c Hin'. apply cell_app_l; [exact Hin'|now apply L].
    - rewrite cell_app_r; [|exact Hn|now apply L]. cbn. now rewrite String.eqb_refl.
  Qed.

  Lemma held_gens w g : held w -> (exists x, nth_error (w_gens w) g = Some x) -> g < length (w_gens w0).
  Proof.
    intros S [x H]. destruct (hd_shape _ S) as (_ & P & _). specialize (P g). rewrite H in P. cbn in P.
    destruct (nth_error (w_gens w0) g) eqn:E; [|discriminate]. apply nth_error_Some. congruence.
  Qed.
  Lemma generate_there h g n vs h' : gen_generate h g n = Ok (vs, h') -> exists x, nth_error h g = Some x.
  Proof. unfold gen_generate. cbn [heap_generate]. destruct (nth_error h g); [eauto|discriminate]. Qed.

  Lemma held_items r w rel : held w -> still_r r -> nth_error (w_rels w) r = Some rel ->
    (exists rel0, nth_error (w_rels w0) r = Some rel0 /\ stored rel = stored rel0) /\ forall k, items w0 r k = tos_stored rel k.
  Proof.
    intros S St Hr. destruct (nth_error (w_rels w0) r) as [rel0|] eqn:H0.
    2:{ apply nth_error_None in H0. rewrite <- (hd_rels _ S) in H0. apply nth_error_None in H0. congruence. }
    destruct (hd_items _ S r St _ H0) as (rel' & Hr' & E). assert (rel' = rel) by congruence. subst rel'. split; [eauto|]. intros k.
    unfold items, pairs_of, tos_stored, about. rewrite H0, E. clear. induction (stored rel0) as [|[[f t] q] l IH]; cbn; [reflexivity|].
    change (keqb f k) with (val_eqb f k). destruct (val_eqb f k); cbn; now rewrite IH.
  Qed.

  Lemma gives_there g n q w vs h' : random_values (w_gens w) g n q = Ok (vs, h') -> exists x, nth_error (w_gens w) g = Some x.
  Proof.
    unfold random_values. destruct q; [|apply generate_there]. intros E. apply bind_ok in E as (ns & _ & E). apply bind_ok in E as ([fl h1] & E & _).
    eapply generate_there; eauto.
  Qed.
  Lemma generate_cells g n q d w d' l w' : run_op (OpGenerate g n q) d w = (Ok (d', l), w') -> ~ In n (df_cols d) ->
    exists qs vs gens', random_values (w_gens w) g (length (df_rows d)) qs = Ok (vs, gens') /\ (q = None <-> qs = None) /\ adds_column d d' n vs.
  Proof.
    cbn [run_op]. intros H Hf. apply bindM_ok in H. destruct H as (r & w1 & H1 & H). injection H as <- _ <-.
    mstep H1. apply lift_ok in E. destruct E as [E ->]. mstep H1. injection E0 as <- <-.
    mstep H1. destruct x0 as [vs gens']. apply lift_ok in E0. destruct E0 as [E0 ->]. mstep H1. injection E1 as <- <-.
    mstep H1. apply lift_ok in E1. destruct E1 as [E1 ->]. apply lift_ok in H1. destruct H1 as [H1 ->].
    exists x, vs, gens'. split; [exact E0|]. split; [|eapply column_adds; eauto].
    destruct q as [q|]; [apply bind_ok in E as (s & _ & E)|]; injection E as <-; split; congruence.
  Qed.
  Lemma dependent_cells g n f d w d' l w' : run_op (OpGenerateDep g n f) d w = (Ok (d', l), w') -> ~ In n (df_cols d) ->
    exists dg vs dg' gens', nth_error (w_dgens w) g = Some dg /\
      dgen_generate (w_gens w) dg (map (fun row => cell (df_cols d) (snd row) f) (df_rows d)) = Ok (vs, dg', gens') /\ adds_column d d' n vs.
  Proof.
    cbn [run_op]. intros H Hf. unfold transformed in H. mstep H. injection H as <- <- <-. mstep E. apply lift_ok in E0 as [E0 ->]. apply get_col_cells in E0.
    mstep E. apply deref_ok in E1 as [E1 ->]. mstep E. injection E2 as <- <-. mstep E. destruct x2 as [[vs dg'] gs']. apply lift_ok in E2 as [E2 ->].
    mstep E. injection E3 as _ <-. mstep E. injection E3 as <- <-. mstep E. injection E3 as _ <-. mstep E. apply lift_ok in E3 as [E3 ->]. apply lift_ok in E as [E ->].
    subst x0. rewrite map_map in E2. exists x1, vs, dg', gs'. split; [exact E1|]. split; [exact E2|]. eapply column_adds; eauto.
  Qed.

  Lemma column_row d d' name vs : adds_column d d' name vs -> rectangular d -> ~ In name (df_cols d) ->
    forall row', In row' (df_rows d') -> exists row v, In (row, v) (combine (df_rows d) vs) /\ In row (df_rows d) /\
      agrees (df_cols d) (row_of d row) (row_of d' row') /\ row_of d' row' name = v.
  Proof. intros A. apply cells_row. now apply adds_column_cells. Qed.

  Lemma combine_map_r {A B} (f : A -> B) l x y : In (x, y) (combine l (map f l)) -> y = f x.
  Proof. induction l as [|a l IH]; cbn; [intros []|]. intros [[= <- <-]|H]; auto. Qed.

  Lemma uniform_bits n st us st' : draws Rng.uniform n st = (us, st') -> Forall (fun u => 0 <= u < 1)%Q us.
  Proof. apply RngFacts.draws_Forall. intros r x r' E. now apply RngFacts.uniform_range in E. Qed.

  Lemma dgen_tells h d obs vs d' h' : gens_kept (w_gens w0) h -> (forall e, d = DBulk e -> e < length (w_gens w0)) ->
    dgen_generate h d obs = Ok (vs, d', h') -> forall o v, In (o, v) (combine obs vs) ->
    match d with
    | DConst c => v = c
    | DTrigger proba _ => exists p b, proba o = Ok p /\ v = VBool b /\ ((p <= 0)%Q -> b = false) /\ ((1 <= p)%Q -> b = true)
    | DBulk e => exists us, v = VList us /\ Forall (can_give (w_gens w0) e) us
    end.
  Proof.
    intros K Hl E o v Hin. destruct d as [c|proba st|e]; cbn [dgen_generate] in E.
    - injection E as <- _ _. now apply combine_map_r in Hin.
    - destruct (draws _ _ _) as [us st'] eqn:Ed. apply bind_ok in E as (ps & Ep & E). injection E as <- _ _.
      pose proof (uniform_bits _ _ _ _ Ed) as U. apply mapr_ok_Forall2 in Ep. clear Ed. revert us U Hin.
      induction Ep as [|o1 p1 obs ps Hp Ep IH]; intros [|u us] U Hin; cbn in Hin; try contradiction.
      inversion U as [|? ? U1 U2]; subst. destruct Hin as [[= <- <-]|Hin]; [|eauto].
      exists p1, (Qltb u p1). split; [exact Hp|]. split; [reflexivity|]. split; intros Hq.
      + apply RngFacts.Qltb_nlt. eapply Qle_trans; [exact Hq|apply U1].
      + apply RngFacts.Qltb_lt. eapply Qlt_le_trans; [apply U1|exact Hq].
    - apply bind_ok in E as (ns & _ & E). apply bind_ok in E as ([vss h1] & E & E1). injection E1 as <- _ _.
      destruct (heap_calls_can (gens_kept (w_gens w0)) (can_give (w_gens w0) e) (fun h n => gen_generate h e n)) with (ns := ns) (h := h) (vss := vss) (h' := h1) as [_ F].
      + cbv beta. intros ha n x hb Ha Hb. split; [eapply gens_kept_trans; [exact Ha|eapply heap_generate_kept; exact Hb]|].
        eapply gen_can; [exact Ha| |exact Hb]. now apply Hl.
      + exact K.
      + exact E.
      + apply in_combine_r in Hin. apply in_map_iff in Hin as (us & <- & Hin). exists us. split; [reflexivity|].
        rewrite Forall_forall in F. now apply F.
  Qed.

  Lemma part_flat {A B} (f : A -> list B) l x : In x l -> exists rest, Permutation (flat_map f l) (f x ++ rest).
  Proof.
    intros H. apply in_split in H as (a & b & ->). exists (flat_map f a ++ flat_map f b). rewrite flat_map_app. cbn [flat_map].
    rewrite !app_assoc. apply Permutation_app_tail, Permutation_app_comm.
  Qed.

  Lemma related_tos rel f t : related rel f t <-> In t (tos_stored rel f).
  Proof.
    unfold related, tos_stored. rewrite in_map_iff. split.
    - intros [q H]. exists (f, t, q). split; [reflexivity|]. apply filter_In. split; [exact H|]. cbn [fst]. apply keqb_refl.
    - intros ([[f' t'] q] & E & H). cbn in E. subst t'. apply filter_In in H as [H K]. cbn [fst] in K. apply keqb_eq in K. subst f'. now exists q.
  Qed.

  Lemma op_tells_given date o new d w d' l w' : brings o new -> held w -> c_date (w_clock w) = date -> run_op o d w = (Ok (d', l), w') ->
    rectangular d -> NoDup new -> (forall c, In c new -> ~ In c (df_cols d)) -> incl (reads o) (df_cols d) ->
    forall row', In row' (df_rows d') -> tells_given still_r still_a w0 date o (row_of d' row').
  Proof.
    intros B S Hdate H R Nn Hf Hreads row' Hin.
    destruct o; cbn [tells_given]; try exact I.
    - (* DropRow *) destruct (drop_row_exact _ _ _ _ _ _ H) as (_ & _ & Hc & Hr). rewrite Hr in Hin. apply filter_In in Hin as [_ E].
      unfold row_of. rewrite Hc. now apply val_eqb_eq in E.
    - (* Apply *) assert (Hfn : forall c, In c named_as -> ~ In c (df_cols d)) by (destruct B as [[-> _]|(? & ? & ? & ? & _)]; [exact Hf|discriminate]).
      assert (Nn' : NoDup named_as) by (destruct B as [[-> _]|(? & ? & ? & ? & _)]; [exact Nn|discriminate]). split.
      2:{ intros k Hk. destruct (applied_rows _ _ _ _ _ _ _ _ _ H Hk Hfn) as (Hc & Hr & Hl). destruct R as [_ L]. rewrite Hr in Hin. apply in_map_iff in Hin as (row & <- & Hrow).
          specialize (Hl row Hrow). unfold row_of. rewrite Hc. cbn [snd].
          replace (map (cell (df_cols d ++ named_as) (snd row ++ k (map (cell (df_cols d) (snd row)) source_fields))) source_fields) with (map (cell (df_cols d) (snd row)) source_fields)
            by (apply map_ext_in; intros c Hcs; symmetry; apply cell_app_l; [now apply Hreads|now apply L]).
          revert Hl. generalize (k (map (cell (df_cols d) (snd row)) source_fields)) as vs. intros vs Hl.
          transitivity (map (cell named_as vs) named_as); [apply map_ext_in; intros c Hcn; apply cell_app_r; [now apply Hfn|now apply L]|].
          clear - Nn' Hl. revert vs Hl. induction named_as as [|n ns IH]; intros [|v vs] Hl; try discriminate; [reflexivity|]. inversion Nn' as [|? ? Hn Ns]; subst.
          cbn [map cell]. rewrite String.eqb_refl. f_equal. cbn in Hl. transitivity (map (cell ns vs) ns); [|apply IH; [exact Ns|lia]]. apply map_ext_in. intros c Hc.
          destruct (String.eqb_spec c n) as [->|_]; [contradiction|reflexivity]. }
      destruct named_as as [|named [|? ?]]; try exact I. intros g k -> Hk.
      assert (Hn : ~ In named (df_cols d)).
      { destruct B as [[-> _]|(? & ? & ? & ? & _)]; [|discriminate]. apply Hf. now left. }
      destruct (series_applied _ _ _ _ _ _ _ _ H Hn) as (A & _ & _).
      destruct (column_row _ _ _ _ A R Hn _ Hin) as (row & v & Hv & Hrow & Ag & Ev). rewrite Ev.
      specialize (Hk (map (fun row => cell (df_cols d) (snd row)) (df_rows d))).
      assert (Es : map (fun c => map (fun row : record => row c) (map (fun row => cell (df_cols d) (snd row)) (df_rows d))) source_fields =
                   map (fun c => map (fun row => cell (df_cols d) (snd row) c) (df_rows d)) source_fields).
      { apply map_ext. intros c. now rewrite map_map. }
      apply (eq_trans (f_equal g (eq_sym Es))) in Hk. rewrite Hk, map_map in Hv. apply combine_map_r in Hv. rewrite Hv. f_equal. apply map_ext_in. intros c Hc. symmetry. apply Ag. now apply Hreads.
    - (* Timestamp *) assert (Hn : ~ In named_as (df_cols d)) by (destruct B as [B|(? & ? & ? & ? & _)]; [cbn in B; subst new; apply Hf; now left|discriminate]).
      destruct (timestamp_adds _ _ _ _ _ _ _ _ H Hn) as (dates & c' & Ed & A & _).
      destruct (column_row _ _ _ _ A R Hn _ Hin) as (row & v & Hv & Hrow & Ag & Ev). rewrite Ev.
      apply in_combine_r in Hv. apply in_map_iff in Hv as (t & <- & Ht). exists t. split; [reflexivity|]. destruct random.
      + apply timestamps_in_step in Ed as (_ & _ & _ & F). rewrite Forall_forall in F. destruct (F t Ht) as [F1 _].
        rewrite <- (hd_step _ S). subst date. exact F1.
      + rewrite timestamps_fixed in Ed. injection Ed as <- _. apply repeat_spec in Ht. congruence.
    - (* Generate *) assert (Hn : ~ In named_as (df_cols d)) by (destruct B as [B|(? & ? & ? & ? & _)]; [cbn in B; subst new; apply Hf; now left|discriminate]).
      destruct (generate_cells _ _ _ _ _ _ _ _ H Hn) as (qs & vs & gens' & Ev & Eq & A).
      pose proof (held_gens _ _ S (gives_there _ _ _ _ _ _ Ev)) as Hg.
      pose proof (random_values_can _ _ _ _ _ _ _ (hd_gens _ S) Hg Ev) as F.
      destruct (column_row _ _ _ _ A R Hn _ Hin) as (row & v & Hv & Hrow & Ag & E). rewrite E. apply in_combine_r in Hv.
      destruct quantity as [q|].
      + destruct qs as [qs|]; [|destruct Eq as [_ Eq]; now discriminate Eq]. rewrite Forall_forall in F. exact (F v Hv).
      + destruct Eq as [Eq _]. rewrite (Eq eq_refl) in F. rewrite Forall_forall in F. exact (F v Hv).
    - (* GenerateDep *) assert (Hn : ~ In named_as (df_cols d)) by (destruct B as [B|(? & ? & ? & ? & _)]; [cbn in B; subst new; apply Hf; now left|discriminate]).
      destruct (dependent_cells _ _ _ _ _ _ _ _ H Hn) as (dg & vs & dg' & gens' & Hd & Ev & A).
      destruct (nth_error (w_dgens w0) generator) as [dg0|] eqn:Hd0.
      2:{ apply nth_error_None in Hd0. rewrite <- (proj1 (hd_dgens _ S)) in Hd0. apply nth_error_None in Hd0. congruence. }
      destruct (proj2 (hd_dgens _ S) _ _ Hd0) as (dg1 & Hd1 & Sd). assert (dg1 = dg) by congruence. subst dg1. clear Hd1.
      destruct (column_row _ _ _ _ A R Hn _ Hin) as (row & v & Hv & Hrow & Ag & E). rewrite E.
      assert (Hov : In (row_of d row observed, v) (combine (map (fun row => cell (df_cols d) (snd row) observed) (df_rows d)) vs)).
      { revert Hv. clear. generalize (df_rows d). intros rows. revert vs. induction rows as [|r rows IH]; intros [|x vs]; cbn; try tauto.
        intros [[= -> ->]|K]; [now left|right; auto]. }
      assert (Hobs : row_of d' row' observed = row_of d row observed) by (apply Ag, Hreads; now left). rewrite Hobs.
      assert (Hb : forall e, dg = DBulk e -> e < length (w_gens w0)).
      { intros e ->. cbn [dgen_generate] in Ev. apply bind_ok in Ev as (ns & Ens & Ev). apply bind_ok in Ev as ([vss h1] & Ev & _).
        destruct ns as [|n0 ns]; [cbn in Ev; injection Ev as <- <-|].
        - exfalso. apply mapr_ok_length in Ens. rewrite map_length in Ens. destruct (df_rows d); [destruct Hrow|discriminate].
        - cbn in Ev. apply bind_ok in Ev as ([vs0 h0] & Ev & _). eapply held_gens; [exact S|]. eapply generate_there; eauto. }
      pose proof (dgen_tells _ _ _ _ _ _ (hd_gens _ S) Hb Ev _ _ Hov) as T. destruct dg0, dg; cbn [same_dgen] in Sd; try contradiction; rewrite ?Sd; exact T.
    - (* Neighbours *) intros St. assert (Hn : ~ In named_as (df_cols d)) by (destruct B as [B|(? & ? & ? & ? & _)]; [cbn in B; subst new; apply Hf; now left|discriminate]).
      destruct (neighbours_adds _ _ _ _ _ _ _ _ H Hn) as (rl & Hr & -> & _).
      destruct (neighbour_counts _ _ _ _ _ _ _ _ _ H Hn Hr (Forall_nth_error _ _ _ _ (hd_reach _ S) Hr)) as [_ A].
      destruct (column_row _ _ _ _ A R Hn _ Hin) as (row & v & Hv & Hrow & Ag & E). rewrite E. apply combine_map_r in Hv. rewrite Hv.
      rewrite (Ag from) by (apply Hreads; now left). now rewrite (proj2 (held_items _ _ _ S St Hr)).
    - (* SelectOne *) intros St. assert (Hn : ~ In named_as (df_cols d)) by (destruct B as [B|(? & ? & ? & ? & _)]; [cbn in B; subst new; apply Hf; now left|discriminate]).
      destruct (call_one_items _ _ _ _ _ _ _ _ _ _ _ _ H) as (rl & _ & Hr & _).
      destruct (select_one_op _ _ _ _ _ _ _ _ _ _ _ _ _ H Hr (Forall_nth_error _ _ _ _ (hd_reach _ S) Hr) Hn) as (rl' & kept & tos & _ & _ & A & Hrel & _).
      destruct (cells_row _ _ _ _ _ A R Hn _ Hin) as (row & v & Hv & Hrow & Ag & E). rewrite E.
      rewrite (Ag from) by (apply Hreads; now left). rewrite (proj2 (held_items _ _ _ S St Hr)). unfold row_of.
      destruct (Hrel _ _ Hv) as [Rl|(Is & -> & ->)].
      + left. now apply related_tos.
      + right. split; [reflexivity|]. split; [reflexivity|]. destruct (tos_stored rl _) as [|t ts] eqn:Et; [reflexivity|]. exfalso.
        apply (Is t). apply related_tos. rewrite Et. now left.
    - (* SelectAll *) intros St Hh. assert (Hn : ~ In named_as (df_cols d)) by (destruct B as [K|(? & ? & ? & [= <- <- <-] & ->)]; [contradiction|apply Hf; now left]).
      assert (exists rl, nth_error (w_rels w) rel = Some rl) as [rl Hr].
      { cbn [run_op] in H. unfold transformed in H. mstep H. mstep E. apply deref_ok in E0 as [E0 _]. eauto. }
      destruct (held_items _ _ _ S St Hr) as [(rl0 & H0 & Es) Ei].
      assert (Hh' : homogeneous rl) by (specialize (Hh _ H0); unfold homogeneous in *; now rewrite Es).
      destruct (select_all_op _ _ _ _ _ _ _ _ _ H Hr (Forall_nth_error _ _ _ _ (hd_reach _ S) Hr) Hh' Hn) as (kept & tos & _ & _ & Hc & Hl & Hrows & _ & Hk & Hp & _).
      rewrite Hrows in Hin. apply in_map_iff in Hin as ([row ts] & <- & Hin). cbn [fst snd]. unfold row_of. rewrite Hc. cbn [snd].
      assert (Hrow : In row (df_rows d)) by (apply Hk; eapply in_combine_l; eauto). destruct R as [Nd L].
      rewrite (cell_app_l from); [|apply Hreads; now left|now apply L]. rewrite (cell_app_r named_as); [|exact Hn|now apply L]. cbn [cell]. rewrite String.eqb_refl.
      exists ts. split; [reflexivity|]. specialize (Hp _ _ Hin). rewrite Ei. split; [|now apply Permutation_sym].
      intros ->. apply in_combine_l in Hin. apply Hk in Hin as [_ [t Ht]]. apply related_tos in Ht. apply (Permutation_in _ (Permutation_sym Hp)) in Ht. destruct Ht.
    - (* SelectMany *) intros St. assert (Hn : ~ In named_as (df_cols d)) by (destruct B as [B|(? & ? & ? & ? & _)]; [cbn in B; subst new; apply Hf; now left|discriminate]).
      destruct (call_many_items _ _ _ _ _ _ _ _ _ _ _ H) as (rl & _ & Hr & _).
      destruct (select_many_op _ _ _ _ _ _ _ _ _ _ _ _ H Hr (Forall_nth_error _ _ _ _ (hd_reach _ S) Hr) Hn) as (rl' & kept & tos & ns & _ & _ & A & Hl & Hq & _ & Hlen & Hgiven & _ & _ & _ & Hnone).
      destruct (cells_row _ _ _ _ _ A R Hn _ Hin) as (row & v & Hv & Hrow & Ag & E). rewrite E.
      rewrite (Ag from) by (apply Hreads; now left). rewrite (Ag quantity) by (apply Hreads; right; now left). rewrite (proj2 (held_items _ _ _ S St Hr)).
      assert (exists ts, v = VList ts /\ In (row, ts) (combine kept tos)) as (ts & -> & Hts).
      { revert Hv. clear. revert tos. induction kept as [|r kept IH]; intros [|x tos]; cbn; try tauto. intros [[= -> <-]|K]; [eauto|].
        destruct (IH _ K) as (ts & Ets & Hts). eauto. }
      assert (exists n, In (row, n) (combine (df_rows d) ns) /\ row_of d row quantity = vnat n) as (n & Hrn & En).
      { revert Hrow. unfold row_of. clear - Hq. induction Hq as [|r n rows ns Hn0 Hq IH]; [intros []|]. intros [->|K]; [exists n; split; [now left|exact Hn0]|].
        destruct (IH K) as (m & Hm & Em). exists m. split; [now right|exact Em]. }
      exists ts, n. pose proof (Hlen _ _ _ Hrn Hts) as Le.
      destruct (val_eqb (row_of d row from) VNA) eqn:Ena.
      + apply val_eqb_eq in Ena. rewrite (Hnone _ _ Hts Ena). exists (tos_stored rl (row_of d row from)). split; [reflexivity|]. split; [exact En|]. split; [cbn; lia|]. apply Permutation_refl.
      + assert (Hna : row_of d row from <> VNA) by (intros K; rewrite K in Ena; discriminate).
        destruct (Hgiven _ Hna) as [[lo P] _].
        destruct (part_flat (fun rt : (val * list val) * list val => if val_eqb (cell (df_cols d) (snd (fst rt)) from) (row_of d row from) then snd rt else []) _ _ Hts) as [rest P2].
        cbn [fst snd] in P2. unfold row_of in P2. rewrite (proj2 (val_eqb_eq _ _) eq_refl) in P2.
        exists (rest ++ lo). split; [reflexivity|]. split; [exact En|]. split; [exact Le|]. rewrite P. rewrite app_assoc. apply Permutation_app_tail. exact P2.
    - (* Lookup *) intros attribute named po x t Hsel Hpo Hat Ht St.
      destruct (lookup_rows _ _ _ _ _ _ _ _ H) as (-> & Hc & F).
      assert (Hcols : df_cols d' = df_cols d ++ map snd select).
      { apply Hc. destruct B as [B|(? & ? & ? & ? & _)]; [cbn in B; subst new; exact Hf|discriminate]. }
      assert (Nsel : NoDup (map snd select)) by (destruct B as [B|(? & ? & ? & ? & _)]; [cbn in B; now subst new|discriminate]).
      assert (Fsel : forall c, In c (map snd select) -> ~ In c (df_cols d)) by (destruct B as [B|(? & ? & ? & ? & _)]; [cbn in B; now subst new|discriminate]).
      destruct (Forall2_In_r _ _ _ _ F Hin) as (row & Hrow & _ & vs & Evs & Fv). destruct R as [Nd L].
      unfold row_of. rewrite Hcols, Evs. rewrite (cell_app_l id_field); [|apply Hreads; now left|now apply L].
      rewrite (cell_app_r named); [|apply Fsel, in_map_iff; now exists (attribute, named)|now apply L].
      assert (G : exists t', attribute_table w pop attribute t' /\ looked_up t' (cell (df_cols d) (snd row) id_field) (cell (map snd select) vs named)).
      { clear - Fv Nsel Hsel. induction Fv as [|[an nm] v sel vs Hv Fv IH]; [destruct Hsel|]. cbn [map snd cell] in *. inversion Nsel as [|? ? Nn Ns]; subst.
        change (String.eqb named nm) with (keqb named nm). destruct Hsel as [[= -> ->]|Hsel].
        - rewrite keqb_refl. exact Hv.
        - destruct (keqb_spec named nm) as [->|_]; [exfalso; apply Nn, in_map_iff; now exists (attribute, nm)|]. now apply IH. }
      destruct G as (t' & (po' & x' & Hpo' & Hat' & Ht') & Lk).
      assert (t' = t); [|now subst].
      destruct (hd_shape _ S) as (_ & _ & _ & Sp & _). specialize (Sp pop). rewrite Hpo, Hpo' in Sp. cbn in Sp. injection Sp as Sp. rewrite Sp, Hat in Hat'. injection Hat' as <-.
      pose proof (hd_attrs _ S x St) as Sa. cbn in Sa. congruence.
  Qed.
End Held.

Lemma held_weaken w0 (r a r' a' : nat -> Prop) w : (forall x, r' x -> r x) -> (forall x, a' x -> a x) -> held w0 r a w -> held w0 r' a' w.
Proof. intros Hr Ha S. constructor; try apply S; intros x Hx; [now apply (hd_items _ _ _ _ S), Hr|now apply (hd_attrs _ _ _ _ S), Ha]. Qed.

(** What no story changes *)
Definition since (w0 : world) : world -> Prop := held w0 (steady_relationship w0) (steady_attribute w0).
Section Since.
  Context (w0 : world).
  Lemma sc_shape w : since w0 w -> shape w0 w. Proof. exact (hd_shape _ _ _ w). Qed.
  Lemma sc_static w : since w0 w -> stories_rel (fun _ => static) w0 w. Proof. exact (hd_static _ _ _ w). Qed.
  Lemma sc_gens w : since w0 w -> keptg w0 w. Proof. exact (hd_gens _ _ _ w). Qed.
  Lemma sc_dgens w : since w0 w -> dgens_kept (w_dgens w0) (w_dgens w). Proof. exact (hd_dgens _ _ _ w). Qed.
  Lemma sc_items w : since w0 w -> forall r, steady_relationship w0 r -> same_items w0 w r. Proof. exact (hd_items _ _ _ w). Qed.
  Lemma sc_reach w : since w0 w -> Forall reachable (w_rels w). Proof. exact (hd_reach _ _ _ w). Qed.
  Lemma sc_rels w : since w0 w -> length (w_rels w) = length (w_rels w0). Proof. exact (hd_rels _ _ _ w). Qed.
  Lemma sc_attrs w : since w0 w -> forall x, steady_attribute w0 x -> same (OAttribute x) w0 w. Proof. exact (hd_attrs _ _ _ w). Qed.
  Lemma sc_step w : since w0 w -> Clock.c_step (w_clock w) = Clock.c_step (w_clock w0). Proof. exact (hd_step _ _ _ w). Qed.
  Lemma since_start : Forall reachable (w_rels w0) -> since w0 w0. Proof. apply held_start. Qed.
  Lemma of_story_still o : of_story w0 o -> left_still w0 (steady_relationship w0) (steady_attribute w0) o.
  Proof. intros (a & s & Hs & Ho). split; [intros r Hr o' P; eapply Hr; eauto|intros x Hx; eapply Hx; eauto]. Qed.
  Lemma op_since o d w d' l w' : of_story w0 o -> since w0 w -> run_op o d w = (Ok (d', l), w') ->
    since w0 w' /\ c_date (w_clock w') = c_date (w_clock w).
  Proof. intros Ho. apply op_held. now apply of_story_still. Qed.
  Lemma gens_there w g : since w0 w -> (exists x, nth_error (w_gens w) g = Some x) -> g < length (w_gens w0). Proof. apply held_gens. Qed.
  Lemma items_stored r w rel : since w0 w -> steady_relationship w0 r -> nth_error (w_rels w) r = Some rel ->
    (exists rel0, nth_error (w_rels w0) r = Some rel0 /\ stored rel = stored rel0) /\ forall k, items w0 r k = tos_stored rel k.
  Proof. apply held_items. Qed.
  Lemma op_tells date o new d w d' l w' : brings o new -> since w0 w -> c_date (w_clock w) = date -> run_op o d w = (Ok (d', l), w') ->
    rectangular d -> NoDup new -> (forall c, In c new -> ~ In c (df_cols d)) -> incl (reads o) (df_cols d) ->
    forall row', In row' (df_rows d') -> tells w0 date o (row_of d' row').
  Proof. apply op_tells_given. Qed.
End Since.

(** ** What later operations leave of it *)
Lemma tells_given_agree sr sa w0 date o new cols r r' : brings o new -> incl (reads o ++ new) cols -> agrees cols r r' ->
  tells_given sr sa w0 date o r -> tells_given sr sa w0 date o r'.
Proof.
  intros B Hi Ag.
  assert (Rd : forall c, In c (reads o) -> r' c = r c) by (intros c Hc; apply Ag, Hi, in_or_app; now left).
  assert (Nw : forall c, In c new -> r' c = r c) by (intros c Hc; apply Ag, Hi, in_or_app; now right).
  clear Ag Hi. destruct o; cbn [tells_given reads] in *; try tauto;
    try (assert (En : r' named_as = r named_as)
         by (apply Nw; destruct B as [B|(? & ? & ? & B & ->)]; [cbn in B; try contradiction; subst new; now left|first [discriminate|injection B as <- <- <-; now left]])).
  - rewrite Rd by now left. tauto.
  - assert (Rs : map r' source_fields = map r source_fields) by (apply map_ext_in; intros c Hc; now apply Rd). rewrite Rs.
    assert (Ns : map r' named_as = map r named_as) by (apply map_ext_in; intros c Hc; apply Nw; destruct B as [[-> _]|(? & ? & ? & ? & _)]; [exact Hc|discriminate]).
    rewrite Ns. intros [T T2]. split; [|exact T2]. revert T. clear T2.
    destruct named_as as [|named [|? ?]]; try tauto.
    assert (En : r' named = r named) by (apply Nw; destruct B as [[-> _]|(? & ? & ? & ? & _)]; [now left|discriminate]).
    rewrite En. tauto.
  - rewrite En. tauto.
  - rewrite En. destruct quantity; tauto.
  - rewrite En, (Rd observed) by now left. tauto.
  - rewrite En, (Rd from) by now left. tauto.
  - rewrite En, (Rd from) by now left. tauto.
  - rewrite En, (Rd from) by now left. tauto.
  - rewrite En, (Rd from), (Rd quantity) by (cbn; auto). tauto.
  - intros T attribute named po x t Hs. rewrite (Rd id_field) by now left. rewrite (Nw named); [now apply T|].
    destruct B as [B|(? & ? & ? & ? & _)]; [|discriminate]. cbn in B. subst new. apply in_map_iff. now exists (attribute, named).
Qed.

Lemma tells_agree w0 date o new cols r r' : brings o new -> incl (reads o ++ new) cols -> agrees cols r r' -> tells w0 date o r -> tells w0 date o r'.
Proof. apply tells_given_agree. Qed.

(** ** Loggers *)
Lemma explo_lists cols ex row out : explo cols ex row = Ok out ->
  incl ex cols /\ exists n, out = map (fun k => (fst row, log_base cols ex row k)) (seq 0 n) /\
    forall c, In c ex -> length (list_of (cell cols (snd row) c)) = n.
Proof.
  unfold explo. intros H. apply bind_ok in H as (lists & El & H).
  assert (G : incl ex cols /\ lists = map (fun c => list_of (cell cols (snd row) c)) ex).
  { apply mapr_ok_Forall2 in El. clear H. induction El as [|c l ex ls Hc El [IH1 IH2]]; [split; [intros x []|reflexivity]|].
    apply bind_ok in Hc as (i & Ei & Hc). split.
    - intros x [<-|Hx]; [|now apply IH1]. unfold col_pos in Ei. destruct (find_col c cols) as [j|] eqn:F; [|discriminate].
      apply find_col_nth in F. eapply nth_error_In. exact F.
    - cbn [map]. f_equal; [|exact IH2]. rewrite (col_pos_cell _ _ (snd row) _ Ei). destruct (nth i (snd row) VNA); try discriminate. now injection Hc as <-. }
  destruct G as [Hi ->]. split; [exact Hi|].
  destruct (same_length _ _) eqn:Es; [|destruct (length _); discriminate]. injection H as <-. eexists. split.
  - apply map_ext. intros k. f_equal. unfold log_base. f_equal; [|now rewrite map_map].
    apply project_cells. intros c H. apply filter_In in H. tauto.
  - intros c Hc. unfold same_length in Es. rewrite forallb_forall in Es. apply Nat.eqb_eq, Es, in_map_iff. now exists c.
Qed.

Lemma emit_rows names ex d lg : emit_log names ex d = Ok lg -> rectangular d -> forall row', In row' (df_rows lg) ->
  exists row k, In row (df_rows d) /\
    (forall c, names = [] \/ In c names -> row_of lg row' c = if mem c ex then nth k (list_of (row_of d row c)) VNA else row_of d row c) /\
    (forall c, In c ex -> k < length (list_of (row_of d row c))).
Proof.
  intros H [N L]. unfold emit_log in H. apply bind_ok in H as (d1 & E & H).
  assert (G : forall row', In row' (df_rows d1) -> exists row k, In row (df_rows d) /\
    (forall c, row_of d1 row' c = if mem c ex then nth k (list_of (row_of d row c)) VNA else row_of d row c) /\
    (forall c, In c ex -> k < length (list_of (row_of d row c)))).
  { destruct ex as [|e0 ex0].
    - injection E as <-. intros row' Hin. exists row', 0. split; [exact Hin|]. split; [reflexivity|intros c []].
    - set (ex := e0 :: ex0) in *. unfold explode in E. destruct (_ || _); [discriminate|].
      destruct (df_rows d) as [|r0 rs] eqn:Er; [discriminate|]. rewrite <- Er in *. clear r0 rs Er.
      apply bind_ok in E as (pieces & Ep & E). intros row' Hin.
      assert (Hin' : In row' (concat pieces) /\ df_cols d1 = filter (fun c => negb (mem c ex)) (df_cols d) ++ ex).
      { destruct (concat pieces) as [|p ps] eqn:Ec; injection E as <-; [destruct Hin|]. split; [exact Hin|reflexivity]. }
      destruct Hin' as [Hin' Hc1]. apply in_concat in Hin' as (piece & Hp & Hr).
      destruct (mapr_out _ _ _ Ep _ Hp) as (row & Hrow & Ex). destruct (explo_lists _ _ _ _ Ex) as (Hi & n & -> & Hlen).
      apply in_map_iff in Hr as (k & <- & Hk). apply in_seq in Hk. exists row, k. split; [exact Hrow|]. split.
      + intros c. unfold row_of. rewrite Hc1. cbn [snd]. destruct (in_dec string_dec c (df_cols d)) as [Hc|Hc].
        * rewrite log_base_cell; [reflexivity|exact N|exact Hi|exact Hc].
        * destruct (mem c ex) eqn:Em; [exfalso; apply Hc, Hi; now apply mem_In in Em|].
          assert (Na : forall cols cells, ~ In c cols -> cell cols cells c = VNA).
          { clear. induction cols as [|c' cols IH]; intros [|v cells] Hn; try reflexivity. cbn. change (String.eqb c c') with (keqb c c').
            destruct (keqb_spec c c') as [->|_]; [exfalso; apply Hn; now left|]. apply IH. intros K. apply Hn. now right. }
          rewrite !Na; [reflexivity|exact Hc|]. intros K. apply in_app_or in K as [K|K]; [apply filter_In in K; tauto|]. apply mem_In in K. congruence.
      + intros c Hc. unfold row_of. rewrite (Hlen c Hc). lia. }
  destruct names as [|n0 ns].
  - injection H as <-. intros row' Hin. destruct (G _ Hin) as (row & k & Hrow & G1 & G2). exists row, k. auto.
  - apply select_cols_cells in H as [Hc Hr]. intros row' Hin. rewrite Hr in Hin. apply in_map_iff in Hin as (row1 & <- & Hin).
    destruct (G _ Hin) as (row & k & Hrow & G1 & G2). exists row, k. split; [exact Hrow|]. split; [|exact G2].
    intros c [C|Hc']; [discriminate|]. unfold row_of at 1. rewrite Hc. cbn [snd]. rewrite cell_map_self by exact Hc'. apply G1.
Qed.

(** ** One run of the operations of a story *)
Section Chain.
  Context (w0 : world) (id : string) (a : nat) (acts : val -> Prop).

  Lemma told_ext date r r' : (forall c, r' c = r c) -> told w0 id a date acts r -> told w0 id a date acts r'.
  Proof.
    intros E (s & before & names & ex & afterwards & row & k & H1 & H2 & H3 & H4). exists s, before, names, ex, afterwards, row, k.
    split; [exact H1|]. split; [exact H2|]. split; [|exact H4]. intros c Hc. rewrite E. now apply H3.
  Qed.

  Definition all_told (date : Z) (x : option df) : Prop :=
    forall lg row, x = Some lg -> In row (df_rows lg) -> told w0 id a date acts (row_of lg row).

  Lemma appended_told date x y z : appended x y z -> all_told date x -> all_told date y -> all_told date z.
  Proof.
    intros A Hx Hy. destruct x as [u|]; [|cbn in A; now subst z]. destruct y as [v|]; [|cbn in A; now subst z].
    destruct A as (c & -> & _ & Hl & Hc). intros lg row [= <-] Hin. apply In_nth_error in Hin as [k Hk].
    assert (Lk : k < length (df_rows c)) by (apply nth_error_Some; congruence).
    assert (Ec : forall n, Some (row_of c row n) = nth_error (column_of u n ++ column_of v n) k).
    { intros n. rewrite <- Hc. unfold column_of. rewrite nth_error_map, Hk. reflexivity. }
    assert (La : forall n, length (column_of u n) = length (df_rows u)) by (intros; apply map_length).
    destruct (Nat.lt_ge_cases k (length (df_rows u))) as [K|K].
    - destruct (nth_error (df_rows u) k) as [ra|] eqn:Ea; [|apply nth_error_None in Ea; lia].
      apply (told_ext date (row_of u ra)); [|eapply Hx; [reflexivity|]; eapply nth_error_In; eauto]. intros n. specialize (Ec n).
      rewrite nth_error_app1 in Ec by (rewrite La; exact K). unfold column_of in Ec. rewrite nth_error_map, Ea in Ec. cbn in Ec. now injection Ec.
    - destruct (nth_error (df_rows v) (k - length (df_rows u))) as [rb|] eqn:Eb; [|apply nth_error_None in Eb; lia].
      apply (told_ext date (row_of v rb)); [|eapply Hy; [reflexivity|]; eapply nth_error_In; eauto]. intros n. specialize (Ec n).
      rewrite nth_error_app2 in Ec by (rewrite La; exact K). rewrite La in Ec. unfold column_of in Ec. rewrite nth_error_map, Eb in Ec. cbn in Ec. now injection Ec.
  Qed.

  Context (s0 : story) (Es0 : nth_error (w_stories w0) a = Some s0).

  Definition row_told (date : Z) (before : list op) (r : record) : Prop :=
    Forall (fun o => tells w0 date o r) before /\ acts (r (st_field s0)).

  Lemma ops_told date cols ops cols' : builds_up cols ops cols' -> forall before d l0 w d' l w',
    st_ops s0 = before ++ ops -> Forall (fun o => exists new, brings o new /\ incl (reads o ++ new) cols) before ->
    df_cols d = cols -> In (st_field s0) cols -> rectangular d -> (forall row, In row (df_rows d) -> row_told date before (row_of d row)) ->
    since w0 w -> c_date (w_clock w) = date -> all_told date (dget id l0) ->
    run_list run_op ops d l0 w = (Ok (d', l), w') ->
    since w0 w' /\ c_date (w_clock w') = date /\ all_told date (dget id l).
  Proof.
    induction 1 as [cols|cols o new ops cols' Br Nn Hf Hr _ IH]; intros before d l0 w d' l w' Eo Hb Hc Hfield Rd Hrow S Hd Ht H.
    - cbn [run_list] in H. injection H as <- <- <-. auto.
    - apply run_list_step in H as (d1 & l1 & w1 & all & H1 & M & H).
      assert (Ho : of_story w0 o) by (exists a, s0; split; [exact Es0|]; rewrite Eo; apply in_or_app; right; now left).
      destruct (op_since _ _ _ _ _ _ _ Ho S H1) as [S1 Hd1]. rewrite Hd in Hd1. rewrite <- Hc in Hf, Hr.
      assert (Ne : df_cols d <> []) by (rewrite Hc; intros K; rewrite K in Hfield; destruct Hfield).
      destruct (brings_rows _ _ _ _ _ _ _ Br H1 Rd Nn Hf Ne) as (Hc1 & Rd1 & Hrows).
      pose proof (op_tells _ _ _ _ _ _ _ _ _ Br S Hd H1 Rd Nn Hf Hr) as T.
      refine (IH (before ++ [o]) d1 all w1 d' l w' _ _ _ _ Rd1 _ S1 Hd1 _ H).
      + rewrite <- app_assoc. exact Eo.
      + apply Forall_app. split.
        * eapply Forall_impl; [|exact Hb]. cbv beta. intros o' (n' & B' & I'). exists n'. split; [exact B'|]. intros c Hin. apply in_or_app. left. now apply I'.
        * constructor; [|constructor]. exists new. split; [exact Br|]. intros c Hin. apply in_app_or in Hin as [Hin|Hin]; apply in_or_app; [left|now right].
          rewrite <- Hc. now apply Hr.
      + now rewrite Hc1, Hc.
      + apply in_or_app. now left.
      + intros row' Hin. destruct (Hrows _ Hin) as (row & Hin0 & Ag). destruct (Hrow _ Hin0) as [F Hm]. split.
        * apply Forall_app. split; [|constructor; [now apply T|constructor]]. rewrite Forall_forall in F, Hb |- *. intros o' Ho'.
          destruct (Hb _ Ho') as (n' & B' & I'). eapply tells_agree; [exact B'|exact I'| |now apply F]. now rewrite <- Hc.
        * rewrite (Ag (st_field s0)) by (rewrite Hc; exact Hfield). exact Hm.
      + destruct (merge_logs l0 l1) as (all0 & M0 & D0). assert (all0 = all) by congruence. subst all0. rewrite D0.
        eapply appended_told; [apply merged_appended|exact Ht|]. clear IH H.
        assert (Lg : (forall c ex, ~ part_of (OpFieldLogger id c ex) o) \/ (exists lid c ex, o = OpFieldLogger lid c ex)).
        { clear - Br. destruct o; try (left; intros c ex K; inversion K; fail); [right; eauto|].
          destruct Br as [K|(? & ? & ? & K & _)]; [cbn in K; contradiction|discriminate]. }
        destruct Lg as [Nl|(lid & names & ex & ->)].
        * rewrite (logs_nothing id _ Nl _ _ _ _ _ H1). intros lg row E; discriminate.
        * apply logger_data in H1 as (-> & -> & lg & E & ->). intros lg' row' El Hin. cbn [dget] in El.
          destruct (keqb_spec id lid) as [<-|]; [|discriminate]. injection El as <-.
          destruct (emit_rows _ _ _ _ E Rd _ Hin) as (row & k & Hrow0 & E1 & E2). destruct (Hrow _ Hrow0) as [F Hm].
          exists s0, before, names, ex, ops, (row_of d row), k. auto 8.
  Qed.
End Chain.

(** ** Histories *)
Section Histories.
  Context (w0 : world) (id : string).

  Lemma held_fields sr sa w w' : held w0 sr sa w -> shape w0 w' -> stories_rel (fun _ => static) w w' -> w_gens w' = w_gens w -> w_dgens w' = w_dgens w ->
    w_rels w' = w_rels w -> w_attrs w' = w_attrs w -> Clock.c_step (w_clock w') = Clock.c_step (w_clock w) -> held w0 sr sa w'.
  Proof.
    intros S Sh St E1 E2 E3 E4 E5. constructor.
    - exact Sh.
    - eapply (sr_trans (fun _ => static)); [|apply S|exact St]. intros; eapply static_trans; eauto.
    - unfold keptg. rewrite E1. apply S.
    - rewrite E2. apply S.
    - intros r Hr. unfold same_items. rewrite E3. now apply S.
    - rewrite E3. apply S.
    - rewrite E3. apply S.
    - intros x Hx. cbn. rewrite E4. now apply S.
    - rewrite E5. apply S.
  Qed.

  Lemma since_fields w w' : since w0 w -> shape w0 w' -> stories_rel (fun _ => static) w w' -> w_gens w' = w_gens w -> w_dgens w' = w_dgens w ->
    w_rels w' = w_rels w -> w_attrs w' = w_attrs w -> Clock.c_step (w_clock w') = Clock.c_step (w_clock w) -> since w0 w'.
  Proof. apply held_fields. Qed.

  Lemma unforced_held sr sa a s w : held w0 sr sa w -> nth_error (w_stories w) a = Some s -> held w0 sr sa (unforced a s w).
  Proof.
    intros S Es. apply (held_fields sr sa w); try reflexivity; try exact S.
    - eapply shape_trans; [apply S|]. apply (put_story_local (fun _ => True) (fun _ => True) a s (with_forced s []) w w Logic.I Es eq_refl). intros y _. apply same_refl.
    - split; [cbn; apply GensProps.set_nth_length|]. intros b sb Hb. cbn. rewrite nth_error_set_nth. destruct (Nat.eqb_spec a b) as [->|_].
      + rewrite Hb. exists (with_forced s []). split; [reflexivity|]. assert (sb = s) by congruence. subst. apply static_forced.
      + exists sb. split; [exact Hb|apply static_refl].
  Qed.

  Lemma unforced_since a s w : since w0 w -> nth_error (w_stories w) a = Some s -> since w0 (unforced a s w).
  Proof. apply unforced_held. Qed.

  Lemma other_fields h w w' : (forall a, h <> HExec a) -> happen h w = (Ok tt, w') ->
    w_gens w' = w_gens w /\ w_dgens w' = w_dgens w /\ w_rels w' = w_rels w /\ w_attrs w' = w_attrs w.
  Proof.
    intros N H.
    assert (G : forall x, (exists i, x = OGenerator i \/ x = ODependent i \/ x = ORelationship i \/ x = OAttribute i) -> same x w w').
    { intros x Hx. pose proof (happening_same h w x) as K. rewrite H in K. apply K. clear K H.
      destruct Hx as (i & [->|[->|[->| ->]]]); destruct h as [b| |b ids|b ids|b ids states|b ids]; cbn [happening_changes]; try discriminate;
        try (now specialize (N b)); try (intros [C|(t & _ & C)]; discriminate); try (intros [C|(s & _ & C)]; discriminate). }
    split; [|split; [|split]]; symmetry; apply nth_error_ext; intros i.
    - apply (G (OGenerator i)); eauto.
    - apply (G (ODependent i)); eauto.
    - apply (G (ORelationship i)); eauto 6.
    - apply (G (OAttribute i)); eauto 6.
  Qed.

  Lemma other_clock h w w' : (forall a, h <> HExec a) -> happen h w = (Ok tt, w') ->
    Clock.c_step (w_clock w') = Clock.c_step (w_clock w) /\
    c_date (w_clock w') = (c_date (w_clock w) + if match h with HClock => true | _ => false end then Clock.c_step (w_clock w) else 0)%Z.
  Proof.
    intros N H. assert (K : h = HClock \/ same OClock w w').
    { destruct h as [b| |b ids|b ids|b ids states|b ids]; [now specialize (N b)|now left|right..];
      match type of H with happen ?h _ = _ => pose proof (happening_same h w OClock) as K end; rewrite H in K; apply K; cbn [happening_changes]; try discriminate.
      intros [C|(s & _ & C)]; discriminate. }
    destruct K as [->|K].
    - cbn [happen] in H. injection H as <-. destruct (CircusFacts.increment_facts w) as (A & B & _). auto.
    - cbn in K. rewrite K. split; [reflexivity|]. destruct h as [b| |b ids|b ids|b ids states|b ids]; try lia.
      cbn [happen] in H. injection H as <-. destruct (CircusFacts.increment_facts w) as (A & B & _). rewrite K in A. exact A.
  Qed.

  Lemma other_since h w w' : (forall a, h <> HExec a) -> happen h w = (Ok tt, w') -> since w0 w -> since w0 w'.
  Proof.
    intros N H S. destruct (other_fields h w w' N H) as (E1 & E2 & E3 & E4). destruct (other_clock h w w' N H) as [E5 _].
    apply (since_fields w); auto.
    - eapply shape_trans; [apply S|]. destruct (happening_local (fun _ => True) (fun _ => True) h w w) as (_ & _ & K & _); auto; [intros y _; apply same_refl|].
      now rewrite H in K.
    - pose proof (happen_static h w) as K. now rewrite H in K.
  Qed.

  Lemma list_since ops : Forall (of_story w0) ops -> forall d l0 w d' l w', since w0 w -> run_list run_op ops d l0 w = (Ok (d', l), w') ->
    since w0 w' /\ c_date (w_clock w') = c_date (w_clock w).
  Proof.
    induction 1 as [|o ops Ho _ IH]; intros d l0 w d' l w' S H.
    - cbn [run_list] in H. injection H as <- <- <-. auto.
    - apply run_list_step in H as (d1 & l1 & w1 & all & H1 & _ & H). destruct (op_since _ _ _ _ _ _ _ Ho S H1) as [S1 E1].
      destruct (IH _ _ _ _ _ _ S1 H) as [S2 E2]. split; [exact S2|congruence].
  Qed.
  Lemma list_quiet ops : (forall o c ex, In o ops -> ~ part_of (OpFieldLogger id c ex) o) -> forall d l0 w d' l w',
    run_list run_op ops d l0 w = (Ok (d', l), w') -> dget id l = dget id l0.
  Proof.
    induction ops as [|o ops IH]; intros N d l0 w d' l w' H.
    - cbn [run_list] in H. now injection H as <- <- <-.
    - apply run_list_step in H as (d1 & l1 & w1 & all & H1 & M & H). rewrite (IH (fun o' c ex K => N o' c ex (or_intror K)) _ _ _ _ _ _ H).
      destruct (merge_logs l0 l1) as (all0 & M0 & D0). assert (all0 = all) by congruence. subst all0. rewrite D0.
      rewrite (logs_nothing id o (fun c ex => N o c ex (or_introl eq_refl)) _ _ _ _ _ H1). now destruct (dget id l0).
  Qed.

  Lemma frames_dict L : NoDup (dkeys L) -> frames_of id L = match dget id L with Some d => match df_rows d with [] => [] | _ => [d] end | None => [] end.
  Proof.
    intros N. unfold frames_of.
    assert (E : map snd (filter (fun e : string * df => String.eqb (fst e) id) L) = match dget id L with Some d => [d] | None => [] end).
    { induction L as [|[k d] L IH]; [reflexivity|]. cbn in N. inversion N as [|? ? Hn Hr]; subst. cbn [filter fst dget].
      specialize (IH Hr). change (String.eqb k id) with (keqb k id).
      destruct (keqb_spec k id) as [->|Nk].
      - rewrite keqb_refl. cbn [map snd].
        replace (map snd _) with (@nil df); [reflexivity|]. symmetry. rewrite IH. now rewrite (proj2 (dget_None id L)).
      - destruct (keqb_spec id k); [congruence|]. exact IH. }
    rewrite E. destruct (dget id L) as [d|]; [|reflexivity]. cbn [filter]. now destruct (df_rows d).
  Qed.

  Lemma story_then w a : since w0 w -> forall s, nth_error (w_stories w) a = Some s ->
    exists s0, nth_error (w_stories w0) a = Some s0 /\ static s0 s.
  Proof.
    intros S s Es. destruct (sc_static _ _ S) as [Hl St].
    assert (exists s0, nth_error (w_stories w0) a = Some s0) as [s0 Es0].
    { destruct (nth_error (w_stories w0) a) eqn:E; [eauto|]. apply nth_error_None in E. assert (a < length (w_stories w)) by (apply nth_error_Some; congruence). lia. }
    exists s0. split; [exact Es0|]. destruct (St a s0 Es0) as (s' & Es' & T). now replace s with s' by congruence.
  Qed.

  Lemma exec_since a w l w' : since w0 w -> execute a w = (Ok l, w') -> since w0 w'.
  Proof.
    intros S H. apply execute_ok in H as (s & Es & H). destruct (story_then w a S s Es) as (s0 & Es0 & T). pose proof T as (_ & _ & _ & _ & _ & _ & _ & To & _).
    pose proof (unforced_since a s w S Es) as Su.
    destruct H as [(_ & -> & H)|(_ & d & w1 & w2 & H1 & H2 & H3)].
    - apply (other_since (HTick a (snd (active_inactive_ids s))) (unforced a s w)); [discriminate|exact H|exact Su].
    - unfold run_chain in H1.
      assert (Ops : Forall (of_story w0) (st_ops s)) by (apply Forall_forall; intros o Ho; exists a, s0; split; [exact Es0|]; now rewrite <- To).
      assert (S1 : since w0 w1) by (eapply list_since; eauto).
      assert (S2 : since w0 w2).
      { destruct (st_auto s); [apply (other_since (HReset a (Some (due_members s))) w1)|apply (other_since (HTick a (due_members s)) w1)]; auto; discriminate. }
      apply (other_since (HTick a (snd (active_inactive_ids s))) w2); auto; discriminate.
  Qed.

  Lemma exec_told a w l w' : tidy w0 id -> since w0 w -> execute a w = (Ok l, w') ->
    since w0 w' /\ c_date (w_clock w') = c_date (w_clock w) /\ Forall (told w0 id a (c_date (w_clock w)) (acts_now w a)) (records id l).
  Proof.
    intros Td S H. pose proof (exec_since _ _ _ _ S H) as S3. pose proof (CircusFacts.execute_nodup _ _ _ _ H) as Nl. pose proof (CircusFacts.execute_shape a w) as (Cd & _). rewrite H in Cd. cbn [snd] in Cd.
    apply execute_ok in H as (s & Es & H). destruct (story_then w a S s Es) as (s0 & Es0 & T). pose proof T as (_ & _ & Tf & _ & _ & _ & _ & To & Ti).
    pose proof (unforced_since a s w S Es) as Su.
    destruct H as [(_ & -> & H)|(_ & d & w1 & w2 & H1 & H2 & H3)].
    - split; [exact S3|]. split; [exact Cd|constructor].
    - unfold run_chain in H1.
      split; [exact S3|]. split; [exact Cd|]. unfold records. rewrite (frames_dict l Nl).
      assert (A : all_told w0 id a (acts_now w a) (c_date (w_clock w)) (dget id l)).
      { destruct (Td a s0 Es0) as [(cols & B)|Q].
        - rewrite To in H1.
          refine (proj2 (proj2 (ops_told w0 id a (acts_now w a) s0 Es0 (c_date (w_clock w)) _ _ _ B [] _ _ _ _ _ _ eq_refl _ _ _ _ _ Su eq_refl _ H1))).
          + constructor.
          + cbn. now rewrite Tf.
          + now left.
          + apply init_rect.
          + intros row Hin. split; [constructor|]. cbn [init_story_data df_rows] in Hin. apply in_map_iff in Hin as (i & <- & Hi).
            unfold row_of. cbn [snd df_cols init_story_data]. cbn [cell]. rewrite Tf, String.eqb_refl.
            exists s. auto.
          + intros lg row E; discriminate.
        - rewrite To in H1. rewrite (list_quiet _ Q _ _ _ _ _ _ H1). intros lg row E; discriminate. }
      destruct (dget id l) as [lg|]; [|constructor]. apply Forall_forall. intros r Hr.
      assert (Hr' : In r (map (fun row => cell (df_cols lg) (snd row)) (df_rows lg))) by (destruct (df_rows lg) eqn:Er in Hr; [destruct Hr|]; cbn [flat_map] in Hr; now rewrite app_nil_r in Hr).
      apply in_map_iff in Hr' as (row & <- & Hrow). apply (A lg row eq_refl Hrow).
  Qed.

  Lemma records_app L1 L2 : records id (L1 ++ L2) = records id L1 ++ records id L2.
  Proof. unfold records, frames_of. now rewrite filter_app, map_app, filter_app, flat_map_app. Qed.

  Lemma emits_snoc past : forall w L1 w1 a l w2, emits w past L1 w1 -> execute a w1 = (Ok l, w2) -> emits w (past ++ [HExec a]) (L1 ++ l) w2.
  Proof.
    induction past as [|h past IH]; intros w L1 w1 a l w2 H Hx.
    - inversion H; subst. rewrite <- (app_nil_r ([] ++ l)). apply (emits_exec w1 a l w2 [] [] w2 Hx). apply emits_nil.
    - inversion H as [|y1 b l' w' y5 L' y7 Hb He|y1 y2 w' y4 y5 y6 Hno Hh He]; subst; cbn [app].
      + rewrite <- app_assoc. eapply emits_exec; [exact Hb|]. eapply IH; eauto.
      + eapply emits_other; [exact Hno|exact Hh|]. eapply IH; eauto.
  Qed.
  Lemma emits_snoc_other past : forall w L1 w1 h w2, emits w past L1 w1 -> (forall a, h <> HExec a) -> happen h w1 = (Ok tt, w2) -> emits w (past ++ [h]) L1 w2.
  Proof.
    induction past as [|h0 past IH]; intros w L1 w1 h w2 H N Hx.
    - inversion H; subst. cbn [app]. eapply emits_other; [exact N|exact Hx|apply emits_nil].
    - inversion H as [|y1 b l' w' y5 L' y7 Hb He|y1 y2 w' y4 y5 y6 Hno Hh He]; subst; cbn [app].
      + eapply emits_exec; [exact Hb|]. eapply IH; eauto.
      + eapply emits_other; [exact Hno|exact Hh|]. eapply IH; eauto.
  Qed.

  Lemma history_told : tidy w0 id -> forall hs past L0 w L w', since w0 w -> emits w0 past L0 w -> emits w hs L w' ->
    exists pasts, Forall2 (logged_after w0 id (past ++ hs)) pasts (records id L) /\
      Sorted.StronglySorted earlier pasts /\ Forall (earlier past) pasts.
  Proof.
    intros Td. induction hs as [|h hs IH]; intros past L0 w L w' S H0 H.
    - inversion H; subst. exists []. repeat constructor.
    - inversion H as [|y1 a l w1 y5 L' y7 Hx He|y1 y2 w1 y4 y5 y6 Hno Hh He]; subst.
      + destruct (exec_told a w l w1 Td S Hx) as (S1 & Hd & F).
        destruct (IH (past ++ [HExec a]) _ w1 L' w' S1 (emits_snoc _ _ _ _ _ _ _ H0 Hx) He) as (ps & F2 & Hs & Hk).
        rewrite <- app_assoc in F2. cbn [app] in F2.
        assert (Hk' : Forall (earlier past) ps) by (eapply Forall_impl; [|exact Hk]; unfold earlier; intros q; rewrite app_length; cbn; lia).
        exists (repeat past (length (records id l)) ++ ps). split; [|split].
        * rewrite records_app. apply Forall2_app; [|exact F2]. clear -F H0.
          assert (G : Forall (logged_after w0 id (past ++ HExec a :: hs) past) (records id l)).
          { eapply Forall_impl; [|exact F]. intros r Hr. exists a, hs, L0, w. auto. }
          clear F. induction G as [|r rs Hr _ IHr]; cbn; constructor; auto.
        * clear -Hs Hk'. induction (length (records id l)) as [|m IHm]; [exact Hs|]. cbn. constructor; [exact IHm|].
          apply Forall_app. split; [|exact Hk']. apply Forall_forall. intros k Hin. apply repeat_spec in Hin. subst. unfold earlier. lia.
        * apply Forall_app. split; [|exact Hk']. apply Forall_forall. intros k Hin. apply repeat_spec in Hin. subst. unfold earlier. lia.
      + pose proof (other_since h w w1 Hno Hh S) as S1.
        destruct (IH (past ++ [h]) _ w1 L w' S1 (emits_snoc_other _ _ _ _ _ _ H0 Hno Hh) He) as (ps & F2 & Hs & Hk).
        rewrite <- app_assoc in F2. cbn [app] in F2. exists ps. split; [exact F2|]. split; [exact Hs|].
        eapply Forall_impl; [|exact Hk]. unfold earlier. intros q. rewrite app_length. cbn. lia.
  Qed.

  Lemma emits_date hs : forall w L w', emits w hs L w' ->
    c_date (w_clock w') = (c_date (w_clock w) + Z.of_nat (ticks hs) * Clock.c_step (w_clock w))%Z /\ Clock.c_step (w_clock w') = Clock.c_step (w_clock w).
  Proof.
    induction hs as [|h hs IH]; intros w L w' H.
    - inversion H; subst. cbn. split; [lia|reflexivity].
    - inversion H as [|y1 a l w1 y5 L' y7 Hx He|y1 y2 w1 y4 y5 y6 Hno Hh He]; subst.
      + destruct (IH _ _ _ He) as [A B]. pose proof (CircusFacts.execute_shape a w) as (Cd & Cs & _). rewrite Hx in Cd, Cs. cbn [snd] in Cd, Cs.
        rewrite A, B, Cs, Cd. auto.
      + destruct (IH _ _ _ He) as [A B]. destruct (other_clock h w w1 Hno Hh) as [Cs Cd]. rewrite A, B, Cs, Cd. split; [|reflexivity].
        unfold ticks. cbn [filter]. destruct h; cbn [length]; lia.
  Qed.
End Histories.

