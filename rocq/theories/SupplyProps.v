(** Items are neither lost nor duplicated by stories that buy, make and store them. *)
From Verif Require Import Base BaseFacts Rng Utils Relationship RelationshipFacts SpecRelationship RelationshipProps Frame Gens GensProps Clock Attribute AttributeFacts
  World Story Ops OpsFacts Helpers HelpersFacts Fs Circus SpecStory StoryFacts StoryExec SpecOps OpsProps OpsColumns OpsMore SpecLocal LocalFacts LocalOps LocalCalls
  RandomGens SpecWorld WorldProps StoryProps CircusProps UtilsFacts SpecSupply SupplyFacts.
From Coq Require Import Permutation.

Lemma held_same S w w' : w_rels w' = w_rels w -> held S w' = held S w.
Proof. intros E. unfold held. now rewrite E. Qed.

Section Supply.
  Context (w0 : world) (Sk : list nat) (g : nat) (strict : bool).
  Hypothesis Nd : NoDup Sk.

  Definition rels_ok (w : world) : Prop := forall r, In r Sk -> exists rel, nth_error (w_rels w) r = Some rel /\ reachable rel.
  Definition gen_ok (w : world) : Prop := exists G, nth_error (w_gens w) g = Some G /\ makes_ids G.

  Lemma op_rels o d w : rels_ok w -> rels_ok (snd (run_op o d w)).
  Proof.
    set (P := fun w w' => rels_ok w -> rels_ok w'). change (P w (snd (run_op o d w))).
    assert (Same : forall w w', w_rels w' = w_rels w -> P w w') by (intros a b E R r Hr; rewrite E; auto).
    apply (run_op_keeps P (fun _ => True) (fun _ => True) (fun _ => True)); auto.
    - intros a b c H1 H2 H. auto.
    - intros v i r r' Hr St R x Hx. destruct (R x Hx) as (rel & H & Hrel). cbn [w_rels set_rels]. rewrite nth_error_set_nth.
      destruct (Nat.eqb_spec i x) as [->|]; [|eauto]. rewrite H. exists r'. split; [reflexivity|]. eapply rel_step_reachable; [|exact St]. congruence.
    - intros a ids _ v. apply Same. unfold story_force, bindM, deref. destruct (nth_error (w_stories v) a); [|reflexivity].
      destruct (force_act_next _ _); reflexivity.
    - intros a ids _ v. apply Same. unfold story_reset, bindM, deref, lift. destruct (nth_error (w_stories v) a); [|reflexivity].
      destruct (nth_error (w_tgens v) _); [|reflexivity]. destruct (reset_timers _ _ _) as [[? ?]|]; reflexivity.
    - intros a ids st _ v. apply Same. unfold story_transit, bindM, deref, lift. destruct (nth_error (w_stories v) a); [|reflexivity].
      destruct (transit_to_state _ _ _); reflexivity.
  Qed.

  Definition out_of (res : result (df * logs)) (t : cargo) : list val := match res with Ok x => aboard t (fst x) | Err _ => [] end.

  (** What one operation does to the items. *)
  Definition moved (o : op) (t : cargo) (d : df) (w : world) (cols' : list string) (t' : cargo) (res : result (df * logs)) (w' : world) : Prop :=
    exists sizes made lost, drawn w w' g sizes made /\
      Permutation (held Sk w ++ aboard t d ++ made) (held Sk w' ++ out_of res t' ++ lost) /\
      (~ data_sized w0 o -> Forall (fun n => 0 <= n)%Z sizes) /\
      forall d' l, res = Ok (d', l) -> df_cols d' = cols' /\ rectangular d' /\ cargo_ok t' d' /\ (strict = true -> lost = []).

  (** the operation raised before doing anything to the items *)
  Lemma moved_err o t d w cols' t' e w' : rels_ok w -> gen_ok w ->
    (forall r, In r Sk -> nth_error (w_rels w') r = nth_error (w_rels w) r) -> nth_error (w_gens w') g = nth_error (w_gens w) g ->
    moved o t d w cols' t' (Err e) w'.
  Proof.
    intros R (G & EG & I) Er Eg. exists [], [], (aboard t d). split; [|split; [|split]].
    - apply (drawn_same _ _ _ G); congruence.
    - rewrite (held_ext _ _ _ Er). cbn. now rewrite app_nil_r.
    - constructor.
    - discriminate.
  Qed.

  (** an operation that leaves the items alone *)
  Lemma moved_other cols t o new d w : hands_off w0 Sk g o -> adds o new -> NoDup new -> (forall c, In c new -> ~ In c cols) ->
    t = Nothing \/ drops_rows o = false \/ strict = false -> shape w0 w -> rels_ok w -> gen_ok w -> df_cols d = cols -> rectangular d -> cargo_ok t d ->
    moved o t d w (cols ++ new) t (fst (run_op o d w)) (snd (run_op o d w)).
  Proof.
    intros [H1 H2] A Nn Hf Hs Sh R GO Hc Rd Ok.
    assert (Er : forall r, In r Sk -> nth_error (w_rels (snd (run_op o d w))) r = nth_error (w_rels w) r).
    { intros r Hr. apply (op_same o d w (ORelationship r)). intros K. apply (H1 r Hr). eapply changes_shape; [apply shape_sym; exact Sh|exact K]. }
    assert (Eg : nth_error (w_gens (snd (run_op o d w))) g = nth_error (w_gens w) g).
    { apply (op_same o d w (OGenerator g)). intros K. apply H2. eapply changes_shape; [apply shape_sym; exact Sh|exact K]. }
    destruct (run_op o d w) as [[[d' l]|e] w'] eqn:E; cbn [fst snd] in *; [|now apply moved_err].
    subst cols. destruct (other_restricts _ _ _ _ _ _ _ A E Rd Nn Hf) as (Hcols & kept & K & Kd).
    destruct (aboard_restricts _ _ _ _ Ok K) as (Ok' & lost & P & L).
    exists [], [], lost. destruct GO as (G & EG & I). split; [|split; [|split]].
    - apply (drawn_same _ _ _ G); congruence.
    - rewrite (held_ext _ _ _ Er). cbn [out_of fst]. rewrite app_nil_r. now apply Permutation_app_head.
    - constructor.
    - intros d2 l2 [= <- <-]. split; [exact Hcols|]. split; [apply K|]. split; [exact Ok'|]. intros ->.
      destruct Hs as [-> | [Hd | Hd]]; [|auto|discriminate]. apply Permutation_nil in P. now apply app_eq_nil in P.
  Qed.

  Lemma items_perm r r' gone : Permutation (stored r) (stored r' ++ gone) -> Permutation (items_of r) (items_of r' ++ map (fun x => snd (fst x)) gone).
  Proof. intros P. unfold items_of. rewrite <- map_app. now apply Permutation_map. Qed.

  (** buying *)
  Lemma moved_buy cols t r f c discard wt d w : In r Sk -> ~ In c cols -> t = Nothing \/ strict = false ->
    rels_ok w -> gen_ok w -> ~ In VNA (held Sk w) -> df_cols d = cols -> rectangular d ->
    let o := OpSelectOne r f c true true discard wt in
    moved o t d w (cols ++ [c]) (if discard then One c else Perhaps c None) (fst (run_op o d w)) (snd (run_op o d w)).
  Proof.
    intros Hin Hn Hs R GO Na Hc Rd o. subst cols.
    destruct (R r Hin) as (rel & Hr & Hreach). pose proof (held_no_na _ _ _ _ Na Hin Hr) as Nt.
    destruct (held_put Sk w r rel Nd Hin Hr) as (others & P0 & P1).
    assert (Same : forall e, moved o t d w (df_cols d ++ [c]) (if discard then One c else Perhaps c None) (Err e) w) by (intros e; now apply moved_err).
    destruct (run_op o d w) as [[[d' l]|e] w'] eqn:E; cbn [fst snd].
    - destruct (select_one_op _ _ _ _ _ _ _ _ _ _ _ _ _ E Hr Hreach Hn) as (rel' & kept & tos & -> & -> & A & Hrow & _ & _ & _ & Hpop).
      destruct (Hpop eq_refl Nt (or_introl eq_refl)) as (gone & G1 & G2). clear Hpop.
      destruct (one_restricts _ _ _ _ _ A Rd Hn) as ((kept' & K) & Ec & Ic).
      set (t' := if discard then One c else Perhaps c None).
      assert (Ab : Permutation (map (fun x : val * val * Q => snd (fst x)) gone) (aboard t' d')).
      { apply (Permutation_map snd) in G2. rewrite map_map in G2. rewrite G2.
        assert (E1 : map snd (filter (fun ft : val * val => not_na (snd ft)) (combine (map (fun row => cell (df_cols d) (snd row) f) kept) tos)) = filter not_na tos).
        { destruct A as (_ & _ & Hl & _). clear -Hl. revert tos Hl. induction kept as [|row kept IH]; intros [|v tos] Hl; cbn in *; try discriminate; [reflexivity|].
          destruct (not_na v); cbn; rewrite IH by (now injection Hl); reflexivity. }
        rewrite E1. unfold t'. destruct discard; cbn [aboard].
        - rewrite Ec. cut (filter not_na tos = tos); [intros ->; apply Permutation_refl|].
          destruct A as (_ & _ & Hl & _). clear -Hrow Hl Nt. revert Hrow Hl. generalize kept. 
          induction tos as [|v tos IH]; intros [|row kept'] Hrow Hl; cbn in *; try discriminate; [reflexivity|].
          rewrite (IH kept'); [|intros; apply Hrow; now right|now injection Hl].
          destruct (Hrow row v (or_introl eq_refl)) as [(q & Hq)|(_ & _ & K)]; [|discriminate].
          specialize (Nt _ _ _ Hq). unfold not_na. destruct v; [congruence|reflexivity..].
        - rewrite Ec. apply Permutation_refl. }
      exists [], [], (aboard t d). destruct GO as (G & EG & I). split; [|split; [|split]].
      + apply (drawn_same _ _ _ G); exact EG.
      + rewrite (P1 (set_rels (set_nth r rel' (w_rels w)) w) rel' eq_refl), P0, (items_perm _ _ _ G1). cbn [out_of fst]. rewrite app_nil_r, Ab, !app_assoc.
        apply Permutation_app_tail. rewrite <- !app_assoc. apply Permutation_app_head, Permutation_app_comm.
      + constructor.
      + intros d2 l2 [= <- <-]. split; [apply A|]. split; [apply K|]. split; [unfold t'; destruct discard; exact Ic|].
        intros ->. destruct Hs as [-> | Hs]; [reflexivity|discriminate].
    - subst o. cbn [run_op] in E. unfold transformed, bindM at 1 in E.
      unfold bindM, lift, call_select_one, deref, put_rel, modify, ret in E.
      destruct (get_col d f) as [froms|e1] eqn:Ef; [|injection E as <- <-; apply Same].
      destruct (reserved c); [injection E as <- <-; apply Same|].
      unfold bindM, lift in E. cbv beta in E. rewrite Hr in E.
      destruct (select_one rel (Some froms) true discard true wt) as [[rows rel']|e1] eqn:Es; [|injection E as <- <-; apply Same].
      destruct (add_columns _ _ _); [discriminate|]. injection E as <- <-.
      destruct (select_one_pop _ _ _ _ _ _ _ Hreach Nt (or_introl eq_refl) Es) as (gone & G1 & G2).
      exists [], [], (map (fun x => snd (fst x)) gone ++ aboard t d). destruct GO as (G & EG & I). split; [|split; [|split]].
      + apply (drawn_same _ _ _ G); exact EG.
      + rewrite (P1 (set_rels (set_nth r rel' (w_rels w)) w) rel' eq_refl), P0, (items_perm _ _ _ G1). cbn [out_of app]. rewrite app_nil_r, !app_assoc.
        apply Permutation_app_tail. rewrite <- !app_assoc. apply Permutation_app_head, Permutation_app_comm.
      + constructor.
      + discriminate.
  Qed.

  Lemma moved_check cols c b d w : ~ In b cols -> rels_ok w -> gen_ok w -> df_cols d = cols -> rectangular d -> cargo_ok (Perhaps c None) d ->
    let o := OpApply [c] [b] (series_f isnull) in
    moved o (Perhaps c None) d w (cols ++ [b]) (Perhaps c (Some b)) (fst (run_op o d w)) (snd (run_op o d w)).
  Proof.
    intros Hn R GO Hc Rd Hin o. subst cols.
    assert (Er : forall r, In r Sk -> nth_error (w_rels (snd (run_op o d w))) r = nth_error (w_rels w) r) by (intros r _; apply (op_same o d w (ORelationship r)); intros []).
    assert (Eg : nth_error (w_gens (snd (run_op o d w))) g = nth_error (w_gens w) g) by (apply (op_same o d w (OGenerator g)); intros []).
    destruct (run_op o d w) as [[[d' l]|e] w'] eqn:E; cbn [fst snd] in *; [|now apply moved_err].
    destruct (series_applied _ _ _ _ _ _ _ _ E Hn) as (A & _ & _). pose proof A as (Ac & _). apply adds_column_cells in A.
    destruct (one_restricts _ _ _ _ _ A Rd Hn) as (_ & Eb & Ib). pose proof (adds_cells_extended _ _ _ _ _ A) as Ex. clear Ex.
    assert (Hk : restricts d d' (df_rows d)).
    { destruct (extended_restricts true d d' [b] Rd) as (k & K & Ek).
      - destruct (series_applied _ _ _ _ _ _ _ _ E Hn) as ((B1 & B2 & B3) & _). split; [exact B1|]. exists (df_rows d). split; [apply sublist_refl|]. split; [reflexivity|].
        rewrite B3. revert B2. generalize (isnull (map (fun c0 => map (fun row => cell (df_cols d) (snd row) c0) (df_rows d)) [c])). generalize (df_rows d).
        induction l0 as [|x l0 IH]; intros [|v vs] Hl; cbn in *; try discriminate; constructor; [cbn; split; [reflexivity|now exists [v]]|]. apply IH. now injection Hl.
      - repeat constructor. intros [].
      - intros x [<-|[]]. exact Hn.
      - now rewrite Ek in K by reflexivity. }
    destruct (aboard_restricts (Perhaps c None) _ _ _ Hin Hk) as (Ok' & lost & P & L). specialize (L eq_refl). subst lost.
    exists [], [], []. destruct GO as (G & EG & I). split; [|split; [|split]].
    - apply (drawn_same _ _ _ G); congruence.
    - rewrite (held_ext _ _ _ Er). cbn [out_of fst]. apply Permutation_app_head. rewrite (app_nil_r (aboard (Perhaps c None) d)). exact P.
    - constructor.
    - intros d2 l2 [= <- <-]. split; [exact Ac|]. split; [apply Hk|]. split; [|reflexivity]. cbn [cargo_ok].
      split; [exact Ok'|]. split; [exact Ib|]. rewrite Eb. unfold isnull. cbn [map hd]. destruct Hk as (_ & _ & Hk). destruct (Hk c Hin) as [_ ->]. reflexivity.
  Qed.

  Lemma moved_drop cols c b d w : rels_ok w -> gen_ok w -> df_cols d = cols -> rectangular d -> cargo_ok (Perhaps c (Some b)) d ->
    moved (OpDropRow b) (Perhaps c (Some b)) d w cols (One c) (fst (run_op (OpDropRow b) d w)) (snd (run_op (OpDropRow b) d w)).
  Proof.
    intros R GO Hc Rd (Hin & Hb & Eb). subst cols. set (o := OpDropRow b).
    assert (Er : forall r, In r Sk -> nth_error (w_rels (snd (run_op o d w))) r = nth_error (w_rels w) r) by (intros r _; apply (op_same o d w (ORelationship r)); intros []).
    assert (Eg : nth_error (w_gens (snd (run_op o d w))) g = nth_error (w_gens w) g) by (apply (op_same o d w (OGenerator g)); intros []).
    destruct (run_op o d w) as [[[d' l]|e] w'] eqn:E; cbn [fst snd] in *; [|now apply moved_err].
    assert (Ad : adds o []) by reflexivity.
    destruct (other_restricts _ _ _ _ _ _ _ Ad E Rd) as (Ec & _ & (_ & Rd' & _) & _); [constructor|intros x []|]. rewrite app_nil_r in Ec.
    destruct (drop_row_exact _ _ _ _ _ _ E) as (_ & _ & _ & Hr).
    exists [], [], []. destruct GO as (G & EG & I). split; [|split; [|split]].
    - apply (drawn_same _ _ _ G); congruence.
    - rewrite (held_ext _ _ _ Er). cbn [out_of fst aboard]. apply Permutation_app_head. rewrite !app_nil_r.
      cut (filter (fun v => negb (is_na v)) (column_of d c) = column_of d' c); [intros ->; apply Permutation_refl|].
      unfold column_of in *. rewrite Ec, Hr. rewrite map_map in Eb. clear -Eb. induction (df_rows d) as [|row rows IH]; cbn [map filter] in *; [reflexivity|].
      injection Eb as E1 E2. rewrite E1. rewrite (IH E2). destruct (is_na _); reflexivity.
    - constructor.
    - intros d2 l2 [= <- <-]. split; [exact Ec|]. split; [exact Rd'|]. split; [|reflexivity]. cbn. now rewrite Ec.
  Qed.

  Lemma moved_make o t t' c d w values wm sizes made : ~ In c (df_cols d) -> t = Nothing \/ strict = false ->
    rels_ok w -> gen_ok w -> rectangular d ->
    run_op o d w = transformed (let* out := lift (column d c values) in lift (add_columns JLeft d out)) wm ->
    w_rels wm = w_rels w -> drawn w wm g sizes made -> (forall d', column_of d' c = values -> aboard t' d' = made) ->
    t' = One c \/ t' = Many c -> (~ data_sized w0 o -> Forall (fun n => 0 <= n)%Z sizes) ->
    moved o t d w (df_cols d ++ [c]) t' (fst (run_op o d w)) (snd (run_op o d w)).
  Proof.
    intros Hn Hs R GO Rd E Er D Hm Ht Hz.
    assert (Er' : forall r, In r Sk -> nth_error (w_rels wm) r = nth_error (w_rels w) r) by (intros; now rewrite Er).
    rewrite E. unfold transformed, bindM, lift.
    destruct (column d c values) as [out|e] eqn:Eo.
    - destruct (add_columns JLeft d out) as [d'|e] eqn:Em; cbn [fst snd ret].
      + pose proof (adds_column_cells _ _ _ _ (column_adds _ _ _ _ _ Eo Em Hn)) as A.
        destruct (one_restricts _ _ _ _ _ A Rd Hn) as ((k & K) & Ec & Ic).
        exists sizes, made, (aboard t d). split; [exact D|]. split; [|split; [exact Hz|]].
        * rewrite (held_ext _ _ _ Er'). cbn [out_of fst]. rewrite (Hm _ Ec). apply Permutation_app_head, Permutation_app_comm.
        * intros d2 l2 [= <- <-]. split; [apply A|]. split; [apply K|]. split; [destruct Ht as [-> | ->]; exact Ic|].
          intros ->. destruct Hs as [-> | Hs]; [reflexivity|discriminate].
      + exists sizes, made, (aboard t d ++ made). split; [exact D|]. split; [|split; [exact Hz|discriminate]].
        rewrite (held_ext _ _ _ Er'). apply Permutation_refl.
    - cbn [fst snd]. exists sizes, made, (aboard t d ++ made). split; [exact D|]. split; [|split; [exact Hz|discriminate]].
      rewrite (held_ext _ _ _ Er'). apply Permutation_refl.
  Qed.

  Lemma drawn_set w h G G' sizes vss : nth_error (w_gens w) g = Some G -> nth_error h g = Some G' -> heap_calls gen_step G sizes = Ok (vss, G') ->
    drawn w (set_gens h w) g sizes (concat vss).
  Proof. intros H1 H2 H3. exists G, G', vss. auto. Qed.

  Lemma flat_lists (vss : list (list val)) : flat_map list_of (map VList vss) = concat vss.
  Proof. induction vss as [|v vss IH]; cbn; [reflexivity|]. now rewrite IH. Qed.

  Lemma moved_one cols t c d w : ~ In c cols -> t = Nothing \/ strict = false -> rels_ok w -> gen_ok w -> df_cols d = cols -> rectangular d ->
    moved (OpGenerate g c None) t d w (cols ++ [c]) (One c) (fst (run_op (OpGenerate g c None) d w)) (snd (run_op (OpGenerate g c None) d w)).
  Proof.
    intros Hn Hs R GO <- Rd. pose proof GO as (G & EG & I).
    destruct (random_values (w_gens w) g (df_len d) None) as [[values h]|e] eqn:Ev.
    - cbn [random_values] in Ev. unfold gen_generate in Ev.
      destruct (plain_generate _ _ _ _ _ _ _ EG I Ev) as (G' & E1 & _ & E2).
      apply (moved_make _ _ _ c d w values (set_gens h w) [Z.of_nat (df_len d)] (concat [values])); auto.
      + cbn [run_op]. unfold transformed. unfold bindM, lift, get, modify. cbn [random_values]. unfold gen_generate. rewrite Ev. reflexivity.
      + apply (drawn_set w h G G'); [exact EG|exact E2|]. cbn [heap_calls]. rewrite E1. reflexivity.
      + intros d' E. cbn. now rewrite app_nil_r.
      + intros _. constructor; [lia|constructor].
    - assert (E : run_op (OpGenerate g c None) d w = (Err e, w)).
      { cbn [run_op]. unfold transformed. unfold bindM, lift, get. rewrite Ev. reflexivity. }
      rewrite E. cbn [fst snd]. now apply moved_err.
  Qed.

  Lemma zsum_nonneg ns : existsb (fun n => n <? 0)%Z ns = false -> (0 <= zsum ns)%Z /\ zsum ns = Z.of_nat (nsum (map Z.to_nat ns)).
  Proof.
    induction ns as [|n ns IH]; intros H; [split; [apply Z.le_refl|reflexivity]|]. cbn [existsb] in H. apply orb_false_iff in H as [H1 H2].
    apply Z.ltb_ge in H1. destruct (IH H2) as [A B].
    change (zsum (n :: ns)) with (n + zsum ns)%Z. change (nsum (map Z.to_nat (n :: ns))) with (Z.to_nat n + nsum (map Z.to_nat ns)). lia.
  Qed.

  Lemma moved_lists cols t c q d w : ~ In c cols -> t = Nothing \/ strict = false -> rels_ok w -> gen_ok w -> df_cols d = cols -> rectangular d ->
    moved (OpGenerate g c (Some q)) t d w (cols ++ [c]) (Many c) (fst (run_op (OpGenerate g c (Some q)) d w)) (snd (run_op (OpGenerate g c (Some q)) d w)).
  Proof.
    intros Hn Hs R GO <- Rd. pose proof GO as (G & EG & I). set (o := OpGenerate g c (Some q)).
    destruct (get_col d q) as [s|e] eqn:Eq.
    2:{ assert (E : run_op o d w = (Err e, w)).
        { subst o. cbn [run_op]. unfold transformed, bindM, lift. rewrite Eq. reflexivity. }
        rewrite E. cbn [fst snd]. now apply moved_err. }
    destruct (random_values (w_gens w) g (df_len d) (Some (map snd s))) as [[values h]|e] eqn:Ev.
    - pose proof Ev as Ev0. cbn [random_values] in Ev. apply bind_ok in Ev as (ns & En & Ev). apply bind_ok in Ev as ([flat h1] & Eg & Ev).
      destruct (existsb _ ns) eqn:Ex; [discriminate|]. injection Ev as <- <-. unfold gen_generate in Eg.
      destruct (plain_generate _ _ _ _ _ _ _ EG I Eg) as (G' & E1 & _ & E2). destruct (zsum_nonneg _ Ex) as [Hz Hz'].
      assert (Hlen : length flat = nsum (map Z.to_nat ns)).
      { apply gen_step_length in E1; [lia|exact Hz]. }
      apply (moved_make _ _ _ c d w (map VList (slices (map Z.to_nat ns) flat)) (set_gens h1 w) [zsum ns] (concat [flat])); auto.
      + subst o. cbn [run_op]. unfold transformed, bindM, lift, get, modify. rewrite Eq. cbn [bind]. rewrite Ev0. reflexivity.
      + apply (drawn_set w h1 G G'); [exact EG|exact E2|]. cbn [heap_calls]. rewrite E1. reflexivity.
      + intros d' E. cbn [aboard concat]. rewrite E, flat_lists, app_nil_r. now apply slices_concat.
    - assert (E : run_op o d w = (Err e, w)).
      { subst o. cbn [run_op]. unfold transformed, bindM, lift, get. rewrite Eq. cbn [bind]. rewrite Ev. reflexivity. }
      rewrite E. cbn [fst snd]. now apply moved_err.
  Qed.

  Lemma moved_bulks cols t k c q d w : nth_error (w_dgens w) k = Some (DBulk g) -> nth_error (w_dgens w0) k = Some (DBulk g) ->
    ~ In c cols -> t = Nothing \/ strict = false -> rels_ok w -> gen_ok w -> df_cols d = cols -> rectangular d ->
    moved (OpGenerateDep k c q) t d w (cols ++ [c]) (Many c) (fst (run_op (OpGenerateDep k c q) d w)) (snd (run_op (OpGenerateDep k c q) d w)).
  Proof.
    intros Hk Hk0 Hn Hs R GO <- Rd. pose proof GO as (G & EG & I). set (o := OpGenerateDep k c q).
    destruct (get_col d q) as [s|e] eqn:Eq.
    2:{ assert (E : run_op o d w = (Err e, w)).
        { subst o. cbn [run_op]. unfold transformed, bindM, lift. rewrite Eq. reflexivity. }
        rewrite E. cbn [fst snd]. now apply moved_err. }
    destruct (dgen_generate (w_gens w) (DBulk g) (map snd s)) as [[[values dg'] h]|e] eqn:Ev.
    - pose proof Ev as Ev0. cbn [dgen_generate] in Ev. apply bind_ok in Ev as (ns & En & Ev). apply bind_ok in Ev as ([vss h1] & Eg & [= <- <- <-]).
      unfold gen_generate in Eg. destruct (plain_calls _ _ _ _ _ _ _ EG I Eg) as (G' & E1 & E2).
      apply (moved_make _ _ _ c d w (map VList vss) (set_dgens (set_nth k (DBulk g) (w_dgens w)) (set_gens h1 w)) ns (concat vss)); auto.
      + subst o. cbn [run_op]. unfold transformed, bindM, lift, get, modify, deref. rewrite Eq, Hk. rewrite Ev0. reflexivity.
      + apply (drawn_ext w (set_gens h1 w)); [reflexivity|reflexivity|]. apply (drawn_set w h1 G G'); assumption.
      + intros d' E. cbn [aboard]. now rewrite E, flat_lists.
      + intros K. exfalso. apply K. exists g. exact Hk0.
    - assert (E : run_op o d w = (Err e, w)).
      { subst o. cbn [run_op]. unfold transformed, bindM, lift, get, deref. rewrite Eq, Hk, Ev. reflexivity. }
      rewrite E. cbn [fst snd]. now apply moved_err.
  Qed.

  Lemma items_add r r' added : Permutation (stored r') (stored r ++ added) -> Permutation (items_of r') (items_of r ++ map (fun x => snd (fst x)) added).
  Proof. intros P. unfold items_of. rewrite <- map_app. now apply Permutation_map. Qed.

  Lemma moved_store o t cols r d w : In r Sk -> rels_ok w -> gen_ok w -> df_cols d = cols -> rectangular d ->
    only_side_effect o = true -> (forall x, changes w o x -> x = ORelationship r) ->
    (forall e w', run_op o d w = (Err e, w') -> w' = w) ->
    (forall d' l w' rel, run_op o d w = (Ok (d', l), w') -> nth_error (w_rels w) r = Some rel -> reachable rel ->
       exists rel' added, w_rels w' = set_nth r rel' (w_rels w) /\ Permutation (stored rel') (stored rel ++ added) /\
         map (fun x => snd (fst x)) added = aboard t d) ->
    moved o t d w cols Nothing (fst (run_op o d w)) (snd (run_op o d w)).
  Proof.
    intros Hin R GO <- Rd Se Hch He Hok. destruct (R r Hin) as (rel & Hr & Hreach).
    assert (Eg : nth_error (w_gens (snd (run_op o d w))) g = nth_error (w_gens w) g).
    { apply (op_same o d w (OGenerator g)). intros K. apply Hch in K. discriminate. }
    destruct (run_op o d w) as [[[d' l]|e] w'] eqn:E; cbn [fst snd] in *.
    2:{ rewrite (He _ _ eq_refl). now apply moved_err. }
    destruct (side_effect_data _ _ _ _ _ _ Se E) as [-> _].
    destruct (Hok _ _ _ _ eq_refl Hr Hreach) as (rel' & added & Ew & P & Ea).
    destruct (held_put Sk w r rel Nd Hin Hr) as (others & P0 & P1).
    exists [], [], []. destruct GO as (G & EG & I). split; [|split; [|split]].
    - apply (drawn_same _ _ _ G); congruence.
    - cbn [out_of fst aboard app]. rewrite !app_nil_r. rewrite (P1 _ _ Ew), P0, (items_add _ _ _ P), <- Ea.
      rewrite <- !app_assoc. apply Permutation_app_head, Permutation_app_comm.
    - constructor.
    - intros d2 l2 [= <- <-]. split; [reflexivity|]. split; [exact Rd|]. split; [exact Logic.I|reflexivity].
  Qed.

  Lemma moved_store_one cols r f c d w : In r Sk -> rels_ok w -> gen_ok w -> df_cols d = cols -> rectangular d ->
    moved (OpRelAdd r f c) (One c) d w cols Nothing (fst (run_op (OpRelAdd r f c) d w)) (snd (run_op (OpRelAdd r f c) d w)).
  Proof.
    intros Hin R GO Hc Rd. apply (moved_store _ _ _ r); auto.
    - intros e w' H. cbn [run_op] in H. unfold side_effect, if_rows in H. destruct (df_rows d); [discriminate|].
      unfold rel_add, bindM, lift, deref, put_rel, modify in H. destruct (get_col d f); [|now injection H]. destruct (get_col d c); [|now injection H].
      destruct (nth_error (w_rels w) r); [|now injection H]. destruct (add_relations _ _ _ _); [discriminate|now injection H].
    - intros d' l w' rel E Hr Hreach. destruct (rel_add_op _ _ _ _ _ _ _ _ _ E Hr Hreach) as (rel' & E1 & E2).
      eexists rel', _. split; [exact E1|]. split; [exact E2|]. rewrite map_map. reflexivity.
  Qed.

  Lemma moved_store_many cols r f c d w : In r Sk -> rels_ok w -> gen_ok w -> df_cols d = cols -> rectangular d ->
    moved (OpRelAddGrouped r f c) (Many c) d w cols Nothing (fst (run_op (OpRelAddGrouped r f c) d w)) (snd (run_op (OpRelAddGrouped r f c) d w)).
  Proof.
    intros Hin R GO Hc Rd. apply (moved_store _ _ _ r); auto.
    - intros e w' H. cbn [run_op] in H. unfold side_effect, if_rows in H. destruct (df_rows d); [discriminate|].
      unfold rel_add_grouped, bindM, lift, deref, put_rel, modify in H. destruct (get_col d f); [|now injection H]. destruct (get_col d c); [|now injection H].
      destruct (mapr _ _); [|now injection H].
      destruct (nth_error (w_rels w) r); [|now injection H]. destruct (add_grouped_relations _ _ _); [discriminate|now injection H].
    - intros d' l w' rel E Hr Hreach. destruct (rel_add_grouped_op _ _ _ _ _ _ _ _ _ E Hr Hreach) as (rel' & E1 & E2).
      eexists rel', _. split; [exact E1|]. split; [exact E2|]. cbn [aboard]. unfold column_of. clear.
      induction (df_rows d) as [|row rows IH]; cbn [flat_map map]; [reflexivity|]. rewrite map_app, IH. f_equal.
      rewrite map_map. cbn. apply map_id.
  Qed.

  Lemma bulk_shape w k p e : shape w0 w -> nth_error (w_gens w0) k = Some (GBulk p e) -> nth_error (w_gens w) k = Some (GBulk p e).
  Proof.
    intros (_ & Sp & _) H. specialize (Sp k). rewrite H in Sp. destruct (nth_error (w_gens w) k) as [G|]; [|discriminate]. cbn in Sp. injection Sp as Sp.
    destruct G; cbn in Sp; try discriminate. now injection Sp as -> ->.
  Qed.

  Lemma moved_flatmap cols t k p c d w : shape w0 w -> nth_error (w_gens w0) k = Some (GBulk p g) -> ~ built_from (w_gens w0) p g ->
    ~ In c cols -> t = Nothing \/ strict = false -> rels_ok w -> gen_ok w -> df_cols d = cols -> rectangular d ->
    moved (OpGenerate k c None) t d w (cols ++ [c]) (Many c) (fst (run_op (OpGenerate k c None) d w)) (snd (run_op (OpGenerate k c None) d w)).
  Proof.
    intros Sh Hk0 Hp Hn Hs R GO <- Rd. pose proof GO as (G & EG & I). set (o := OpGenerate k c None).
    pose proof (bulk_shape _ _ _ _ Sh Hk0) as Hk.
    destruct (random_values (w_gens w) k (df_len d) None) as [[values h]|e] eqn:Ev.
    - pose proof Ev as Ev0. cbn [random_values] in Ev. unfold gen_generate in Ev. cbn [heap_generate] in Ev. rewrite Hk in Ev.
      destruct (Nat.ltb_spec p k) as [Lp|]; [|discriminate]. destruct (Nat.ltb_spec g k) as [Lg|]; [|discriminate]. cbn [andb] in Ev.
      apply bind_ok in Ev as ([samples h1] & E1 & Ev). apply bind_ok in Ev as (ns & E2 & Ev). apply bind_ok in Ev as ([vss h2] & E3 & [= <- <-]).
      assert (E1g : nth_error h1 g = Some G).
      { pose proof (heap_generate_alike (fun _ => True) (built_from (w_gens w0) p) k (w_gens w) (w_gens w) p (Z.of_nat (df_len d))) as A.
        rewrite E1 in A. cbn [alike] in A. destruct A as (_ & _ & _ & A).
        - apply (closed_same _ (w_gens w0)); [apply Sh|apply built_from_closed].
        - constructor.
        - auto.
        - intros j _. reflexivity.
        - rewrite A by exact Hp. exact EG. }
      destruct k as [|k']; [lia|]. destruct (plain_calls _ _ _ _ _ _ _ E1g I E3) as (G' & E4 & E5).
      apply (moved_make _ _ _ c d w (map VList vss) (set_gens h2 w) ns (concat vss)); auto.
      + subst o. cbn [run_op]. unfold transformed, bindM, lift, get, modify. rewrite Ev0. reflexivity.
      + apply (drawn_set w h2 G G'); assumption.
      + intros d' E. cbn [aboard]. now rewrite E, flat_lists.
      + intros K. exfalso. apply K. exists p, g. exact Hk0.
    - assert (E : run_op o d w = (Err e, w)).
      { subst o. cbn [run_op]. unfold transformed, bindM, lift, get. rewrite Ev. reflexivity. }
      rewrite E. cbn [fst snd]. now apply moved_err.
  Qed.

  Lemma carries_moved cols t o cols' t' d w : carries w0 Sk g strict cols t o cols' t' -> shape w0 w -> rels_ok w -> gen_ok w ->
    ~ In VNA (held Sk w) -> df_cols d = cols -> rectangular d -> cargo_ok t d ->
    moved o t d w cols' t' (fst (run_op o d w)) (snd (run_op o d w)).
  Proof.
    intros C Sh R GO Na Hc Rd Ok. destruct C.
    - now apply moved_other.
    - now apply moved_buy.
    - now apply moved_check.
    - now apply moved_drop.
    - now apply moved_one.
    - now apply moved_lists.
    - apply moved_bulks; auto. apply Sh. assumption.
    - now apply moved_flatmap with (p := p).
    - now apply moved_store_one.
    - now apply moved_store_many.
  Qed.

  Lemma op_shape o d w : shape w (snd (run_op o d w)).
  Proof.
    apply (local_op (fun _ => True) (changes w o) w o (fun _ _ => Logic.I) (fun _ H => H) d w w (shape_refl w)). intros x _. apply same_refl.
  Qed.

  Lemma no_na_moved w w' sizes made inn out : gen_ok w -> drawn w w' g sizes made -> Permutation (held Sk w ++ inn ++ made) (held Sk w' ++ out) ->
    ~ In VNA (held Sk w) -> ~ In VNA inn -> gen_ok w' /\ ~ In VNA (held Sk w') /\ ~ In VNA out.
  Proof.
    intros GO D P Na Ni. destruct (drawn_no_na _ _ _ _ _ GO D) as [Nm GO']. split; [exact GO'|].
    assert (K : ~ In VNA (held Sk w' ++ out)).
    { intros K. apply (Permutation_in _ (Permutation_sym P)) in K. apply in_app_or in K as [K|K]; [tauto|]. apply in_app_or in K. tauto. }
    split; intros H; apply K, in_or_app; auto.
  Qed.

  (** the whole chain of a story *)
  Lemma chain_moved ops : forall cols t d l0 w, moves w0 Sk g strict cols t ops -> shape w0 w -> rels_ok w -> gen_ok w ->
    ~ In VNA (held Sk w) -> df_cols d = cols -> rectangular d -> cargo_ok t d -> ~ In VNA (aboard t d) ->
    let w' := snd (run_list run_op ops d l0 w) in
    shape w0 w' /\ rels_ok w' /\ gen_ok w' /\ ~ In VNA (held Sk w') /\
    exists sizes made lost, drawn w w' g sizes made /\
      Permutation (held Sk w ++ aboard t d ++ made) (held Sk w' ++ lost) /\
      ((forall o, In o ops -> ~ data_sized w0 o) -> Forall (fun n => 0 <= n)%Z sizes) /\
      (strict = true -> (exists x, fst (run_list run_op ops d l0 w) = Ok x) -> lost = []).
  Proof.
    induction ops as [|o ops IH]; intros cols t d l0 w Hm Sh R GO Na Hc Rd Ok Nt.
    - cbn [run_list ret snd fst]. split; [exact Sh|]. split; [exact R|]. split; [exact GO|]. split; [exact Na|].
      inversion Hm as [cols1 t1 Ht|]; subst. pose proof GO as (G & EG & I). exists [], [], (aboard t d). split; [now apply (drawn_same _ _ _ G)|].
      split; [rewrite app_nil_r; apply Permutation_refl|]. split; [constructor|]. intros -> _. destruct Ht as [-> |]; [reflexivity|discriminate].
    - inversion Hm as [|cols1 t1 o1 cols' t' ops1 C Hm']; subst.
      pose proof (carries_moved _ _ _ _ _ d w C Sh R GO Na eq_refl Rd Ok) as (s1 & m1 & l1 & D1 & P1 & Z1 & O1).
      pose proof (op_rels o d w R) as R1. pose proof (shape_trans _ _ _ Sh (op_shape o d w)) as Sh1.
      destruct (no_na_moved _ _ _ _ _ _ GO D1 P1 Na Nt) as (GO1 & Na1 & No1).
      destruct (run_op o d w) as [[[d1 lg]|e] w1] eqn:E; cbn [fst snd] in *.
      + destruct (O1 _ _ eq_refl) as (Hc1 & Rd1 & Ok1 & L1).
        destruct (merge_logs l0 lg) as (lm & Em & _).
        assert (Er : run_list run_op (o :: ops) d l0 w = run_list run_op ops d1 lm w1) by (cbn [run_list]; unfold bindM, lift; now rewrite E, Em).
        rewrite Er. clear Er.
        assert (Nt1 : ~ In VNA (aboard t' d1)) by (intros K; apply No1, in_or_app; now left).
        destruct (IH _ _ d1 lm w1 Hm' Sh1 R1 GO1 Na1 Hc1 Rd1 Ok1 Nt1) as (Sh2 & R2 & GO2 & Na2 & s2 & m2 & l2 & D2 & P2 & Z2 & L2).
        split; [exact Sh2|]. split; [exact R2|]. split; [exact GO2|]. split; [exact Na2|].
        exists (s1 ++ s2), (m1 ++ m2), (l2 ++ l1). split; [exact (drawn_trans _ _ _ _ _ _ _ _ D1 D2)|]. split; [|split].
        * cbn [out_of fst] in P1. rewrite (app_assoc (aboard t d)), (app_assoc (held Sk w)), P1, <- !app_assoc.
          rewrite (app_assoc (held Sk _) l2 l1), <- P2, <- !app_assoc. do 2 apply Permutation_app_head. apply Permutation_app_comm.
        * intros Hz. apply Forall_app. split; [apply Z1, Hz; now left|apply Z2; intros; apply Hz; now right].
        * intros Hs Hx. now rewrite (L1 Hs), (L2 Hs Hx).
      + assert (Er : run_list run_op (o :: ops) d l0 w = (Err e, w1)) by (cbn [run_list]; unfold bindM; now rewrite E).
        rewrite Er. clear Er. cbn [fst snd].
        split; [exact Sh1|]. split; [exact R1|]. split; [exact GO1|]. split; [exact Na1|].
        exists s1, m1, l1. split; [exact D1|]. split; [exact P1|]. split; [intros Hz; apply Z1, Hz; now left|]. intros _ (x & K). discriminate.
  Qed.

  (** *** Stories and histories *)
  Definition inv (w : world) : Prop := shape w0 w /\ rels_ok w /\ gen_ok w /\ ~ In VNA (held Sk w) /\ stories_rel (fun _ => static) w0 w.
  Definition flow (w w' : world) (fine : Prop) : Prop :=
    exists sizes made lost, drawn w w' g sizes made /\ Permutation (held Sk w ++ made) (held Sk w' ++ lost) /\
      (fixed_sizes w0 -> Forall (fun n => 0 <= n)%Z sizes) /\ (strict = true -> fine -> lost = []).
  Hypothesis chains : forall a s, nth_error (w_stories w0) a = Some s -> moves w0 Sk g strict [st_field s] Nothing (st_ops s).

  Lemma flow_same w w' fine : gen_ok w -> w_rels w' = w_rels w -> w_gens w' = w_gens w -> flow w w' fine.
  Proof.
    intros (G & EG & I) Er Eg. exists [], [], []. split; [apply (drawn_same _ _ _ G); congruence|].
    rewrite (held_same _ _ _ Er), !app_nil_r. auto.
  Qed.

  Lemma reset_stock a ids v : w_rels (snd (story_reset a ids v)) = w_rels v /\ w_gens (snd (story_reset a ids v)) = w_gens v.
  Proof.
    unfold story_reset, bindM, deref, lift. destruct (nth_error (w_stories v) a); [|auto].
    destruct (nth_error (w_tgens v) _); [|auto]. destruct (reset_timers _ _ _) as [[? ?]|]; auto.
  Qed.
  Lemma tick_stock a ids v : w_rels (snd (story_tick a ids v)) = w_rels v /\ w_gens (snd (story_tick a ids v)) = w_gens v.
  Proof.
    unfold story_tick, bindM, deref, lift. destruct (nth_error (w_stories v) a); [|auto]. destruct (timer_tick _ _); auto.
  Qed.
  Lemma force_stock a ids v : w_rels (snd (story_force a ids v)) = w_rels v /\ w_gens (snd (story_force a ids v)) = w_gens v.
  Proof.
    unfold story_force, bindM, deref. destruct (nth_error (w_stories v) a); [|auto]. destruct (force_act_next _ _); auto.
  Qed.
  Lemma transit_stock a ids st v : w_rels (snd (story_transit a ids st v)) = w_rels v /\ w_gens (snd (story_transit a ids st v)) = w_gens v.
  Proof.
    unfold story_transit, bindM, deref, lift. destruct (nth_error (w_stories v) a); [|auto]. destruct (transit_to_state _ _ _); auto.
  Qed.

  Lemma init_rect f active : rectangular (init_story_data f active).
  Proof. split; [repeat constructor; easy|]. intros x Hx. cbn in Hx. apply in_map_iff in Hx as (i & <- & _). reflexivity. Qed.

  Lemma flow_weaken w w' w2 (fine fine2 : Prop) : (fine2 -> fine) -> w_rels w2 = w_rels w' -> w_gens w2 = w_gens w' -> flow w w' fine -> flow w w2 fine2.
  Proof.
    intros Hf Er Eg (sizes & made & lost & (G & G' & vss & A1 & A2 & A3 & A4) & P & Z & L). exists sizes, made, lost.
    split; [exists G, G', vss; rewrite Eg; auto|]. rewrite (held_same _ _ _ Er). auto.
  Qed.

  Lemma exec_flow a w : inv w -> flow w (snd (execute a w)) (exists l, fst (execute a w) = Ok l) /\
    rels_ok (snd (execute a w)) /\ gen_ok (snd (execute a w)) /\ ~ In VNA (held Sk (snd (execute a w))).
  Proof.
    intros (Sh & R & GO & Na & St). destruct (nth_error (w_stories w) a) as [s|] eqn:Es.
    2:{ assert (E : exists e, execute a w = (Err e, w)) by (unfold execute, bindM, deref; rewrite Es; eauto). destruct E as [e ->].
        cbn [fst snd]. split; [apply flow_same; auto|auto]. }
    destruct St as [Hl St]. assert (exists s0, nth_error (w_stories w0) a = Some s0) as [s0 Es0].
    { destruct (nth_error (w_stories w0) a) eqn:E; [eauto|]. apply nth_error_None in E. assert (a < length (w_stories w)) by (apply nth_error_Some; congruence). lia. }
    destruct (St a s0 Es0) as (s' & Es' & T). rewrite Es in Es'. injection Es' as <-. pose proof T as (_ & _ & Tf & _ & _ & _ & _ & To & _).
    pose proof (chains a s0 Es0) as Hm. rewrite <- Tf, <- To in Hm.
    set (wf := snd (put_story a (with_forced s []) w)).
    assert (Ew : execute a w =
      (let (active, inactive) := active_inactive_ids s in
       let* all_logs :=
         match active with
         | [] => ret []
         | _ =>
             let* (_, l) := run_chain (st_ops s) (init_story_data (st_field s) active) in
             let* _ := if st_auto s then story_reset a (Some active) else story_tick a active in
             ret l
         end in
       let* _ := story_tick a inactive in
       ret all_logs) wf).
    { unfold execute, bindM at 1. unfold deref. rewrite Es. destruct (active_inactive_ids s) as [active inactive]. reflexivity. }
    rewrite Ew. clear Ew. destruct (active_inactive_ids s) as [active inactive].
    assert (Shf : shape w0 wf).
    { eapply shape_trans; [exact Sh|]. apply (put_story_local (fun _ => True) (fun _ => True) a s (with_forced s []) w w Logic.I Es eq_refl). intros x _. apply same_refl. }
    assert (Rf : rels_ok wf) by exact R. assert (GOf : gen_ok wf) by exact GO. assert (Naf : ~ In VNA (held Sk wf)) by exact Na.
    (* the rest only ticks *)
    assert (Tail : forall (m : M logs) (fine0 : Prop), flow w (snd (m wf)) fine0 -> ((exists l, fst (m wf) = Ok l) -> fine0) ->
              rels_ok (snd (m wf)) -> gen_ok (snd (m wf)) -> ~ In VNA (held Sk (snd (m wf))) ->
              let m' := (let* all_logs := m in let* _ := story_tick a inactive in ret all_logs) in
              flow w (snd (m' wf)) (exists l, fst (m' wf) = Ok l) /\ rels_ok (snd (m' wf)) /\ gen_ok (snd (m' wf)) /\ ~ In VNA (held Sk (snd (m' wf)))).
    { intros m fine0 F Hf R1 G1 N1 m'. subst m'.
      assert (Q : w_rels (snd ((let* all_logs := m in let* _ := story_tick a inactive in ret all_logs) wf)) = w_rels (snd (m wf)) /\
                  w_gens (snd ((let* all_logs := m in let* _ := story_tick a inactive in ret all_logs) wf)) = w_gens (snd (m wf)) /\
                  ((exists l, fst ((let* all_logs := m in let* _ := story_tick a inactive in ret all_logs) wf) = Ok l) -> exists l, fst (m wf) = Ok l)).
      { unfold bindM. destruct (m wf) as [[l|e] w1]; cbn [fst snd]; [|auto]. destruct (tick_stock a inactive w1) as [Q1 Q2].
        destruct (story_tick a inactive w1) as [[]]; cbn [fst snd ret] in *; eauto. }
      destruct Q as (Q1 & Q2 & Q3). split; [|split; [|split]].
      - eapply flow_weaken; [|exact Q1|exact Q2|exact F]. auto.
      - intros r Hr. rewrite Q1. auto.
      - unfold gen_ok. now rewrite Q2.
      - now rewrite (held_same _ _ _ Q1). }
    destruct active as [|i active].
    - apply (Tail (ret []) True); auto. now apply flow_same.
    - set (d := init_story_data (st_field s) (i :: active)).
      destruct (chain_moved (st_ops s) _ Nothing d [] wf Hm Shf Rf GOf Naf eq_refl (init_rect _ _) Logic.I (fun H => H)) as (_ & R1 & G1 & N1 & sizes & made & lost & D & P & Z & L).
      cbn [aboard app] in P.
      assert (F : flow w (snd (run_chain (st_ops s) d wf)) (exists x, fst (run_chain (st_ops s) d wf) = Ok x)).
      { exists sizes, made, lost. split; [exact D|]. split; [exact P|]. split; [|exact L]. intros Fx. apply Z. intros o Ho. apply (Fx a s0 o Es0). now rewrite <- To. }
      set (m := let* (_, l) := run_chain (st_ops s) d in let* _ := (if st_auto s then story_reset a (Some (i :: active)) else story_tick a (i :: active)) in ret l).
      assert (Q : w_rels (snd (m wf)) = w_rels (snd (run_chain (st_ops s) d wf)) /\ w_gens (snd (m wf)) = w_gens (snd (run_chain (st_ops s) d wf)) /\
                  ((exists l, fst (m wf) = Ok l) -> exists x, fst (run_chain (st_ops s) d wf) = Ok x)).
      { unfold m. unfold bindM. destruct (run_chain (st_ops s) d wf) as [[[d1 l]|e] w1]; cbn [fst snd].
        - destruct (st_auto s).
          + destruct (reset_stock a (Some (i :: active)) w1) as [Q1 Q2]. destruct (story_reset a (Some (i :: active)) w1) as [[]]; cbn [fst snd ret] in *; eauto.
          + destruct (tick_stock a (i :: active) w1) as [Q1 Q2]. destruct (story_tick a (i :: active) w1) as [[]]; cbn [fst snd ret] in *; eauto.
        - split; [reflexivity|]. split; [reflexivity|]. intros [? K]. discriminate. }
      destruct Q as (Q1 & Q2 & Q3). apply (Tail m (exists l, fst (m wf) = Ok l)); auto.
      + eapply flow_weaken; [|exact Q1|exact Q2|exact F]. auto.
      + intros r Hr. rewrite Q1. apply R1, Hr.
      + unfold gen_ok. rewrite Q2. exact G1.
      + rewrite (held_same _ _ _ Q1). exact N1.
  Qed.

  Lemma happen_flow h w : inv w -> flow w (snd (happen h w)) (fst (happen h w) = Ok tt) /\ inv (snd (happen h w)).
  Proof.
    intros I. pose proof I as (Sh & R & GO & Na & St).
    assert (Shh : shape w0 (snd (happen h w))).
    { eapply shape_trans; [exact Sh|]. apply (happening_local (fun _ => True) (fun _ => True) h w w); auto. intros x _. apply same_refl. }
    assert (Sth : stories_rel (fun _ => static) w0 (snd (happen h w))).
    { eapply (sr_trans (fun _ => static)); [|exact St|apply happen_static]. intros; eapply static_trans; eauto. }
    assert (Case : w_rels (snd (happen h w)) = w_rels w /\ w_gens (snd (happen h w)) = w_gens w ->
                   flow w (snd (happen h w)) (fst (happen h w) = Ok tt) /\ inv (snd (happen h w))).
    { intros [Q1 Q2]. split; [now apply flow_same|]. split; [exact Shh|]. split; [intros r Hr; rewrite Q1; auto|]. split; [unfold gen_ok; now rewrite Q2|].
      split; [now rewrite (held_same _ _ _ Q1)|exact Sth]. }
    destruct h as [a| |a ids|a ids|a ids states|a ids].
    - clear Case. destruct (exec_flow a w I) as (F & R1 & G1 & N1). rewrite snd_exec in *. split; [|split; [exact Shh|auto]].
      eapply flow_weaken; [|reflexivity|reflexivity|exact F]. cbn [happen]. destruct (execute a w) as [[l|e] w1]; cbn [fst]; [eauto|discriminate].
    - apply Case. split; reflexivity.
    - apply Case, force_stock.
    - apply Case, reset_stock.
    - apply Case, transit_stock.
    - apply Case, tick_stock.
  Qed.

  Lemma flow_trans a b c (f1 f2 f : Prop) : (f -> f1) -> (f -> f2) -> flow a b f1 -> flow b c f2 -> flow a c f.
  Proof.
    intros H1 H2 (s1 & m1 & l1 & D1 & P1 & Z1 & L1) (s2 & m2 & l2 & D2 & P2 & Z2 & L2). exists (s1 ++ s2), (m1 ++ m2), (l2 ++ l1).
    split; [exact (drawn_trans _ _ _ _ _ _ _ _ D1 D2)|]. split; [|split].
    - rewrite app_assoc, P1, <- app_assoc, (Permutation_app_comm l1), app_assoc, P2, <- app_assoc. reflexivity.
    - intros Fx. apply Forall_app. auto.
    - intros Hs Hf. now rewrite L1, L2 by auto.
  Qed.

  Lemma history_flow l : forall w w', inv w -> history w l w' -> flow w w' True.
  Proof.
    induction l as [|h l IH]; intros w w' I H.
    - inversion H; subst. apply flow_same; [apply I|reflexivity|reflexivity].
    - inversion H as [|w1 h1 w2 l1 w3 E H']; subst. destruct (happen_flow h w I) as [F I1]. rewrite E in F, I1. cbn [fst snd] in *.
      eapply flow_trans; [| |exact F|exact (IH _ _ I1 H')]; auto.
  Qed.

  Lemma after_flow l : forall w, inv w -> flow w (after w l) False /\ inv (after w l).
  Proof.
    induction l as [|h l IH]; intros w I; cbn [after].
    - split; [apply flow_same; [apply I|reflexivity|reflexivity]|exact I].
    - destruct (happen_flow h w I) as [F I1]. destruct (IH _ I1) as [F2 I2]. split; [|exact I2]. eapply flow_trans; [| |exact F|exact F2]; tauto.
  Qed.
End Supply.

Lemma supply_inv strict w S g : supply_chain strict w S g -> NoDup S /\ inv w S g w /\
  forall a s, nth_error (w_stories w) a = Some s -> moves w S g strict [st_field s] Nothing (st_ops s).
Proof.
  intros [(Nd & R & Na & GO) C]. split; [exact Nd|]. split; [|exact C]. split; [apply shape_refl|]. split; [exact R|]. split; [exact GO|]. split; [exact Na|].
  apply sr_refl. intros; apply static_refl.
Qed.

Lemma supply_conserved w S g l w' : supply_chain true w S g -> history w l w' ->
  exists sizes made, drawn w w' g sizes made /\ Permutation (held S w') (held S w ++ made) /\ (fixed_sizes w -> Forall (fun n => 0 <= n)%Z sizes).
Proof.
  intros Sc H. destruct (supply_inv _ _ _ _ Sc) as (Nd & I & C). destruct (history_flow _ _ _ _ Nd C l w w' I H) as (sizes & made & lost & D & P & Z & L).
  rewrite (L eq_refl Logic.I), app_nil_r in P. exists sizes, made. split; [exact D|]. split; [now symmetry|exact Z].
Qed.

Lemma supply_nowhere_else strict w S g l : supply_chain strict w S g ->
  exists sizes made lost, drawn w (after w l) g sizes made /\ Permutation (held S w ++ made) (held S (after w l) ++ lost) /\ (fixed_sizes w -> Forall (fun n => 0 <= n)%Z sizes).
Proof.
  intros Sc. destruct (supply_inv _ _ _ _ Sc) as (Nd & I & C). destruct (after_flow _ _ _ _ Nd C l w I) as [(sizes & made & lost & D & P & Z & _) _].
  exists sizes, made, lost. auto.
Qed.

Lemma new_ids_distinct G0 sizes vss G : new_ids G0 -> Forall (fun n => 0 <= n)%Z sizes -> heap_calls gen_step G0 sizes = Ok (vss, G) -> NoDup (concat vss).
Proof.
  intros [(start & prefix & width & ->)|(cc & prefixes & width & fresh & -> & Hp & Hw)] Z E.
  - now apply (sequential_unique start prefix width sizes vss G).
  - now apply (msisdn_unique cc prefixes width fresh sizes vss G).
Qed.

Lemma supply_unique strict w S g l G0 : supply_chain strict w S g -> all_made w S g G0 -> new_ids G0 ->
  (exists sizes made, drawn w (after w l) g sizes made /\ ~ Forall (fun n => 0 <= n)%Z sizes /\ ~ fixed_sizes w) \/
  all_made (after w l) S g G0.
Proof.
  intros Sc (N & s0 & v0 & G & EG & E0 & Z0 & I0) Nw.
  destruct (supply_nowhere_else strict w S g l Sc) as (sizes & made & lost & D & P & Z).
  destruct (Forall_dec (fun n => 0 <= n)%Z (fun n => Z_le_dec 0 n) sizes) as [Zs|Zs].
  2:{ left. exists sizes, made. split; [exact D|]. split; [exact Zs|]. intros F. apply Zs, Z, F. }
  right. pose proof D as (G1 & G' & vss & A1 & A2 & A3 & A4). rewrite EG in A1. injection A1 as <-.
  assert (E : heap_calls gen_step G0 (s0 ++ sizes) = Ok (v0 ++ vss, G')).
  { apply heap_calls_app. exists v0, G, vss. split; [exact E0|]. split; [exact A3|reflexivity]. }
  assert (Za : Forall (fun n => 0 <= n)%Z (s0 ++ sizes)) by (apply Forall_app; auto).
  pose proof (new_ids_distinct _ _ _ _ Nw Za E) as Nd. rewrite concat_app in Nd.
  assert (N2 : NoDup (held S w ++ made)).
  { subst made. clear - N I0 Nd. apply NoDup_app_intro; [exact N| |].
    - now apply NoDup_app_r in Nd.
    - intros x Hx Hy. apply I0 in Hx. clear - Nd Hx Hy. induction (concat v0) as [|y l IH]; [easy|]. cbn in Nd. inversion Nd; subst.
      destruct Hx as [->|Hx]; [|auto]. apply H1, in_or_app. now right. }
  split.
  - apply (Permutation_NoDup P) in N2. now apply NoDup_app_l in N2.
  - exists (s0 ++ sizes), (v0 ++ vss), G'. split; [exact A2|]. split; [exact E|]. split; [exact Za|].
    intros x Hx. rewrite concat_app, A4. assert (K : In x (held S w ++ made)) by (apply (Permutation_in _ (Permutation_sym P)), in_or_app; now left).
    apply in_app_or in K as [K|K]; apply in_or_app; auto.
Qed.
