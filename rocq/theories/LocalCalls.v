(** Locality of the calls of the user. *)
From Verif Require Import Base BaseFacts Rng Utils Relationship RelationshipFacts Frame Gens Clock Attribute AttributeFacts World Story Ops OpsFacts
  StoryFacts Circus SpecStory SpecWorld SpecLocal LocalFacts LocalOps.

(** [m] changes nothing that exists in [w] except [K], and drops nothing. *)
Definition leaves {A} (K : object -> Prop) (w : world) (m : M A) : Prop :=
  forall x, present x w -> present x (snd (m w)) /\ (~ K x -> same x w (snd (m w))).

Lemma leaves_bind {A B} K w (m : M A) (f : A -> M B) :
  leaves K w m -> (forall a w', m w = (Ok a, w') -> leaves K w' (f a)) -> leaves K w (bindM m f).
Proof.
  intros Hm Hf x Px. destruct (Hm x Px) as (P1 & S1). unfold bindM. destruct (m w) as [[a|e] w1] eqn:E; [|now split].
  cbn [snd] in *. destruct (Hf a w1 eq_refl x P1) as (P2 & S2). split; [exact P2|]. intros N. eapply same_trans; eauto.
Qed.
Lemma leaves_pure {A} K w (m : M A) : snd (m w) = w -> leaves K w m.
Proof. intros E x Px. rewrite E. split; [exact Px|]. intros _. apply same_refl. Qed.
Lemma leaves_ret {A} K w (a : A) : leaves K w (ret a). Proof. now apply leaves_pure. Qed.
Lemma leaves_raise {A} K w e : leaves K w (@raise A e). Proof. now apply leaves_pure. Qed.
Lemma leaves_lift {A} K w (r : result A) : leaves K w (lift r). Proof. now apply leaves_pure. Qed.
Lemma leaves_get {A} K w (f : world -> A) : leaves K w (get f). Proof. now apply leaves_pure. Qed.
Lemma leaves_deref {A} K w (h : world -> list A) i : leaves K w (deref h i).
Proof. apply leaves_pure. unfold deref. now destruct (nth_error (h w) i). Qed.

Lemma set_nth_len {A} i (x : A) l : length (set_nth i x l) = length l.
Proof. revert i. induction l as [|y l IH]; intros [|i]; cbn; congruence. Qed.

Ltac keep := intros x Px; unfold modify; cbn [snd]; split;
  [destruct x; cbn in *; rewrite ?app_length, ?set_nth_len; cbn; auto; lia|].
Lemma same_app {A} (l l' : list A) i : i < length l -> nth_error (l ++ l') i = nth_error l i.
Proof. apply nth_error_app1. Qed.
Ltac app_same := keep; intros N; match goal with y : object |- _ => destruct y end; cbn in *; auto using same_app.

Lemma leaves_app_gens K w l : leaves K w (modify (set_gens (w_gens w ++ l))). Proof. app_same. Qed.
Lemma leaves_app_pops K w l : leaves K w (modify (set_pops (w_pops w ++ l))). Proof. app_same. Qed.
Lemma leaves_app_rels K w l : leaves K w (modify (set_rels (w_rels w ++ l))). Proof. app_same. Qed.
Lemma leaves_app_attrs K w l : leaves K w (modify (set_attrs (w_attrs w ++ l))). Proof. app_same. Qed.
Lemma leaves_app_stories K w l : leaves K w (modify (set_stories (w_stories w ++ l))). Proof. app_same. Qed.
Lemma leaves_pop_names (K : object -> Prop) w d : K OPopulationNames -> leaves K w (modify (set_pop_names d)).
Proof. intros HK. keep. intros N. destruct x; cbn; try reflexivity. tauto. Qed.
Lemma leaves_gen_names (K : object -> Prop) w d : K OGeneratorNames -> leaves K w (modify (set_gen_names d)).
Proof. intros HK. keep. intros N. destruct x; cbn; try reflexivity. tauto. Qed.
Lemma leaves_seeder (K : object -> Prop) w : K OSeeder -> leaves K w next_of_seeder.
Proof.
  intros HK. unfold next_of_seeder. apply leaves_bind; [apply leaves_get|]. intros st w' _.
  destruct (next_seed st) as [seed st']. apply leaves_bind; [|intros; apply leaves_ret].
  keep. intros N. destruct x; cbn; try reflexivity. tauto.
Qed.
Ltac put_same i := let HK := fresh in intros HK; keep; intros N; match goal with y : object |- _ => destruct y end; cbn; try reflexivity;
  rewrite nth_error_set_nth; match goal with |- context [i =? ?a] => destruct (Nat.eqb_spec i a) as [<-|] end; [tauto|reflexivity].
Lemma leaves_put_pop (K : object -> Prop) w i v : K (OPopulation i) -> leaves K w (put_pop i v).
Proof. put_same i. Qed.
Lemma leaves_put_rel (K : object -> Prop) w i v : K (ORelationship i) -> leaves K w (put_rel i v).
Proof. put_same i. Qed.
Lemma leaves_put_attr (K : object -> Prop) w i v : K (OAttribute i) -> leaves K w (put_attr i v).
Proof. put_same i. Qed.
Lemma leaves_put_story (K : object -> Prop) w i v : K (OStory i) -> leaves K w (put_story i v).
Proof. put_same i. Qed.
Lemma leaves_put_tgen (K : object -> Prop) w i v : K (OTimer i) -> leaves K w (put_tgen i v).
Proof. put_same i. Qed.

(** what is already known about operations *)
Lemma leaves_local {A} (K : object -> Prop) w (m : M A) : local (fun _ => True) K w m ->
  (forall x, present x w -> present x (snd (m w))) -> leaves K w m.
Proof.
  intros L P x Px. split; [now apply P|]. intros N.
  apply (L w w (shape_refl w)); [intros y _; apply same_refl|exact N].
Qed.
Lemma gens_len i n h vs h' : gen_generate h i n = Ok (vs, h') -> length h' = length h.
Proof.
  intros H. assert (S : same_parents h h').
  { pose proof (heap_generate_alike (fun _ => True) (fun _ => True) (S i) h h i n (fun _ _ _ _ _ _ _ => I) I (fun _ _ => I) (fun _ _ => eq_refl)) as A.
    unfold gen_generate in H. rewrite H in A. apply A. }
  assert (L : forall k, k < length h' <-> k < length h).
  { intros k. rewrite <- !nth_error_Some. specialize (S k). destruct (nth_error h k), (nth_error h' k); cbn in S; try discriminate; split; congruence. }
  pose proof (L (length h)). pose proof (L (length h')). lia.
Qed.
Lemma leaves_generate (K : object -> Prop) w g n : (forall x, generator_of w g x -> K x) -> leaves K w (generate g n).
Proof.
  intros HK. apply leaves_local; [now apply local_generate|]. intros x Px. unfold generate, bindM, get, lift, modify, ret.
  destruct (gen_generate (w_gens w) g n) as [[vs h']|] eqn:E; cbn; [|exact Px]. apply gens_len in E. destruct x; cbn in *; congruence.
Qed.
Lemma generate_gens_only g n w r w' : generate g n w = (r, w') -> exists h, w' = set_gens h w.
Proof.
  unfold generate, bindM, get, lift, modify, ret. destruct (gen_generate (w_gens w) g n) as [[vs h']|] eqn:E; intros [= <- <-].
  - now exists h'.
  - exists (w_gens w). now destruct w.
Qed.
Lemma seeder_only w r w' : next_of_seeder w = (r, w') -> exists st, w' = set_seeder st w.
Proof.
  unfold next_of_seeder, bindM, get. destruct (next_seed (w_seeder w)) as [seed st']. unfold modify, ret. intros [= <- <-]. eauto.
Qed.

(** ** Populations *)
Lemma leaves_alloc_pop K w l n : leaves K w (alloc_pop l n).
Proof.
  unfold alloc_pop. destruct (negb _); [apply leaves_raise|]. apply leaves_bind; [apply leaves_get|]. intros ps w' [= <- <-].
  apply leaves_bind; [apply leaves_app_pops|intros; apply leaves_ret].
Qed.
Lemma leaves_create_population (K : object -> Prop) w name g n ids : K OPopulationNames ->
  (forall g' x, g = Some g' -> generator_of w g' x -> K x) -> leaves K w (create_population name g n ids).
Proof.
  intros KN KG. unfold create_population. apply leaves_bind; [apply leaves_get|]. intros names w' [= <- <-].
  destruct (dmem _ _); [apply leaves_raise|]. apply leaves_bind.
  - unfold new_population. destruct ids as [l|].
    + destruct g, n; try apply leaves_raise. apply leaves_alloc_pop.
    + destruct n as [[|q|q]|]; try apply leaves_alloc_pop; try apply leaves_raise;
        (destruct g as [g|]; [|apply leaves_raise]);
        (apply leaves_bind; [apply leaves_generate; intros x; now apply KG|intros; apply leaves_alloc_pop]).
  - intros p w1 _. apply leaves_bind; [apply leaves_get|]. intros ns w2 [= <- <-].
    apply leaves_bind; [now apply leaves_pop_names|intros; apply leaves_ret].
Qed.
Lemma leaves_create_relationship (K : object -> Prop) w p name seed : K (OPopulation p) -> K OSeeder ->
  leaves K w (create_relationship p name seed).
Proof.
  intros KP KS. unfold create_relationship. apply leaves_bind; [apply leaves_deref|]. intros po w1 _.
  apply leaves_bind; [destruct seed as [[|q]|]; try apply leaves_ret; now apply leaves_seeder|]. intros s w2 _.
  apply leaves_bind; [apply leaves_get|]. intros g w3 [= <- <-].
  apply leaves_bind; [apply leaves_get|]. intros rels w3 [= <- <-].
  apply leaves_bind; [apply leaves_app_rels|]. intros u w3 _.
  apply leaves_bind; [now apply leaves_put_pop|]. intros; apply leaves_ret.
Qed.
(** the new relationship is not one of those that existed *)
Lemma create_relationship_new p name seed w r w' : create_relationship p name seed w = (Ok r, w') ->
  r = length (w_rels w) /\ w_gens w' = w_gens w /\ length (w_rels w) < length (w_rels w').
Proof.
  unfold create_relationship. intros H. apply bindM_ok in H as (po & w1 & E & H). apply deref_ok in E as (E & ->).
  apply bindM_ok in H as (s & w2 & E2 & H).
  assert (X : exists st, w2 = set_seeder st w).
  { destruct seed as [[|q]|]; try (now apply seeder_only in E2); injection E2 as _ <-; exists (w_seeder w); now destruct w. }
  destruct X as (st & ->). unfold bindM, get, modify, put_pop, ret in H. cbn in H. injection H as <- <-. cbn.
  rewrite app_length. cbn. repeat split; lia.
Qed.

Lemma leaves_weaken {A} (K K' : object -> Prop) w (m : M A) :
  leaves K' w m -> (forall x, present x w -> K' x -> K x) -> leaves K w m.
Proof. intros H HK x Px. destruct (H x Px) as (P & S). split; [exact P|]. intros N. apply S. intros H'. apply N. now apply HK. Qed.

Lemma leaves_rel_add (K : object -> Prop) w r f t : K (ORelationship r) -> leaves K w (rel_add r f t).
Proof.
  intros HK. unfold rel_add. apply leaves_bind; [apply leaves_deref|]. intros; apply leaves_bind; [apply leaves_lift|].
  intros; now apply leaves_put_rel.
Qed.
Lemma leaves_rel_add_grouped (K : object -> Prop) w r f t : K (ORelationship r) -> leaves K w (rel_add_grouped r f t).
Proof.
  intros HK. unfold rel_add_grouped. apply leaves_bind; [apply leaves_deref|]. intros; apply leaves_bind; [apply leaves_lift|].
  intros; now apply leaves_put_rel.
Qed.
Lemma generator_of_gens w w' g x : w_gens w' = w_gens w -> generator_of w' g x -> generator_of w g x.
Proof. intros E (j & -> & H). exists j. rewrite <- E. auto. Qed.

Lemma leaves_stock (K : object -> Prop) w p name g n : K (OPopulation p) -> K OSeeder -> (forall x, generator_of w g x -> K x) ->
  leaves K w (create_stock_relationship p name g n).
Proof.
  intros KP KS KG.
  apply (leaves_weaken K (fun x => K x \/ x = ORelationship (length (w_rels w)))).
  2:{ intros x Px [H| ->]; [exact H|]. cbn in Px. lia. }
  unfold create_stock_relationship. apply leaves_bind; [apply leaves_create_relationship; auto|]. intros r w1 E.
  apply create_relationship_new in E as (-> & E & _).
  apply leaves_bind; [apply leaves_deref|]. intros po w2 H. apply deref_ok in H as (_ & ->).
  apply leaves_bind; [apply leaves_generate; intros x Hx; left; apply KG; now apply (generator_of_gens _ _ _ _ E)|].
  intros items w2 _. apply leaves_bind; [apply leaves_seeder; auto|]. intros seed w3 _.
  apply leaves_bind; [apply leaves_get|]. intros gg w4 _. apply leaves_bind; [apply leaves_lift|]. intros asg w5 _; destruct asg as (assigned & stt).
  apply leaves_rel_add. now right.
Qed.
Lemma leaves_stock_grp (K : object -> Prop) w p name g : K (OPopulation p) -> K OSeeder -> (forall x, generator_of w g x -> K x) ->
  leaves K w (create_stock_relationship_grp p name g).
Proof.
  intros KP KS KG.
  apply (leaves_weaken K (fun x => K x \/ x = ORelationship (length (w_rels w)))).
  2:{ intros x Px [H| ->]; [exact H|]. cbn in Px. lia. }
  unfold create_stock_relationship_grp. apply leaves_bind; [apply leaves_create_relationship; auto|]. intros r w1 E.
  apply create_relationship_new in E as (-> & E & _).
  apply leaves_bind; [apply leaves_deref|]. intros po w2 H. apply deref_ok in H as (_ & ->).
  apply leaves_bind; [apply leaves_generate; intros x Hx; left; apply KG; now apply (generator_of_gens _ _ _ _ E)|].
  intros items w2 _. apply leaves_bind; [apply leaves_lift|]. intros l w3 _.
  apply leaves_rel_add_grouped. now right.
Qed.

Lemma leaves_create_attribute (K : object -> Prop) w p name vs g rel : K (OPopulation p) ->
  (forall g' x, g = Some g' -> generator_of w g' x -> K x) ->
  (forall po n r, nth_error (w_pops w) p = Some po -> rel = Some n -> dget n (p_rels po) = Some r -> K (ORelationship r)) ->
  leaves K w (create_attribute p name vs g rel).
Proof.
  intros KP KG KR. unfold create_attribute. apply leaves_bind.
  - unfold attr_table. apply leaves_bind; [apply leaves_deref|]. intros po w1 H. apply deref_ok in H as (Hp & ->).
    destruct (p_size po =? 0)%Z; [apply leaves_ret|]. destruct rel as [n|].
    + apply leaves_bind.
      * unfold get_relationship. apply leaves_bind; [apply leaves_deref|]. intros; apply leaves_lift.
      * intros r w1 H. apply leaves_bind; [apply leaves_deref|]. intros rl w2 H2.
        apply leaves_bind; [apply leaves_lift|]. intros [rows rel'] w3 _.
        apply leaves_bind; [|intros; apply leaves_ret]. apply leaves_put_rel.
        unfold get_relationship in H. apply bindM_ok in H as (po' & w4 & E & H). apply deref_ok in E as (E & ->).
        apply lift_ok in H as (H & ->). rewrite Hp in E. injection E as <-.
        destruct (dget n (p_rels po)) eqn:Ed; [|discriminate]. injection H as ->. eapply KR; eauto.
    + destruct vs, g; try apply leaves_raise; try apply leaves_lift.
      apply leaves_bind; [apply leaves_generate; intros x; now apply KG|]. intros; apply leaves_lift.
  - intros t w1 _. apply leaves_bind; [apply leaves_deref|]. intros po w2 _. apply leaves_bind; [apply leaves_get|]. intros l w3 [= <- <-].
    apply leaves_bind; [apply leaves_app_attrs|]. intros u w4 _. apply leaves_bind; [now apply leaves_put_pop|]. intros; apply leaves_ret.
Qed.

Lemma leaves_update_attr (K : object -> Prop) w a s : K (OAttribute a) -> leaves K w (update_attr a s).
Proof.
  intros HK. unfold update_attr. apply leaves_bind; [apply leaves_deref|]. intros t w1 _. destruct (attr_update t s) as [res t'].
  apply leaves_bind; [now apply leaves_put_attr|]. intros; apply leaves_lift.
Qed.

Lemma leaves_pop_update (K : object -> Prop) w p d : K (OPopulation p) -> (forall x, attribute_of w p x -> K x) -> leaves K w (pop_update p d).
Proof.
  intros KP KA. unfold pop_update. apply leaves_bind; [apply leaves_deref|]. intros po w1 H. apply deref_ok in H as (Hp & ->).
  destruct (negb _); [apply leaves_raise|]. destruct (negb _); [apply leaves_raise|].
  apply leaves_bind; [now apply leaves_put_pop|]. intros u w1 H. unfold put_pop, modify in H. injection H as _ <-.
  set (w1 := set_pops _ w).
  assert (I : exists po', nth_error (w_pops w1) p = Some po' /\ p_attrs po' = p_attrs po).
  { unfold w1. cbn. rewrite nth_error_set_nth, Nat.eqb_refl, Hp. cbn. eauto. }
  clearbody w1. set (dd := mkDf _ _). clearbody dd. revert w1 I. induction (df_cols d) as [|name l IH]; intros w1 (po' & E & Ea); cbn [foreach]; [apply leaves_ret|].
  apply leaves_bind.
  - apply leaves_bind; [apply leaves_lift|]. intros s w2 H. apply lift_ok in H as (_ & ->).
    apply leaves_bind; [unfold get_attribute; apply leaves_bind; [apply leaves_deref|intros; apply leaves_lift]|].
    intros a w2 H. apply leaves_update_attr. apply KA.
    unfold get_attribute in H. apply bindM_ok in H as (po2 & w3 & E2 & H). apply deref_ok in E2 as (E2 & ->).
    apply lift_ok in H as (H & ->). rewrite E in E2. injection E2 as <-. rewrite Ea in H.
    destruct (dget name (p_attrs po)) eqn:Ed; [|discriminate]. injection H as ->. exists po, name, a.
    split; [exact Hp|]. split; [now apply dget_In|reflexivity].
  - intros u' w2 H. apply IH. exists po'. split; [|exact Ea]. rewrite <- E.
    apply bindM_ok in H as (s & w3 & E3 & H). apply lift_ok in E3 as (_ & ->).
    apply bindM_ok in H as (a & w3 & E3 & H). unfold get_attribute in E3. apply bindM_ok in E3 as (q & w4 & E4 & E3).
    apply deref_ok in E4 as (_ & ->). apply lift_ok in E3 as (_ & ->).
    unfold update_attr in H. apply bindM_ok in H as (t & w4 & E4 & H). apply deref_ok in E4 as (_ & ->).
    destruct (attr_update t s). apply bindM_ok in H as (v & w4 & E4 & H). apply lift_ok in H as (_ & ->).
    unfold put_attr, modify in E4. injection E4 as _ <-. reflexivity.
Qed.

Lemma leaves_select (K : object -> Prop) w p n x : K OSeeder -> leaves K w (pop_select_one p n x).
Proof.
  intros KS. unfold pop_select_one. apply leaves_bind; [apply leaves_deref|]. intros po w1 _.
  apply leaves_bind.
  - destruct x as [name|]; [|apply leaves_ret]. apply leaves_bind.
    + unfold get_attribute_values, get_attribute. apply leaves_bind; [apply leaves_bind; [apply leaves_deref|intros; apply leaves_lift]|].
      intros. apply leaves_bind; [apply leaves_deref|]. intros; apply leaves_lift.
    + intros. apply leaves_bind; [apply leaves_lift|]. intros; apply leaves_ret.
  - intros ws w2 _. apply leaves_bind; [now apply leaves_seeder|]. intros seed w3 _. apply leaves_bind; [apply leaves_get|].
    intros g w4 _. apply leaves_bind; [apply leaves_get|]. intros gens w5 [= <- <-]. apply leaves_bind; [apply leaves_app_gens|].
    intros; apply leaves_ret.
Qed.

(** ** Stories *)
Lemma generate_parents g n w r w' : generate g n w = (r, w') -> same_parents (w_gens w) (w_gens w').
Proof.
  intros E. pose proof (local_generate (fun _ => True) (fun _ => True) w g n (fun _ _ => I) (fun _ _ => I) w w (shape_refl w)
    (fun x _ => same_refl x w)) as (_ & _ & S & _). rewrite E in S. apply S.
Qed.
Lemma generator_of_parents w w' g x : same_parents (w_gens w) (w_gens w') -> generator_of w' g x -> generator_of w g x.
Proof.
  intros S (j & -> & H). exists j. split; [reflexivity|]. eapply built_from_shape; [|exact H]. intros k. symmetry. apply S.
Qed.
Lemma leaves_state_params (K : object -> Prop) w ids size st :
  (forall x, generator_of w (fst st) x \/ generator_of w (snd st) x -> K x) -> leaves K w (state_params ids size st).
Proof.
  intros KG. unfold state_params. apply leaves_bind; [apply leaves_generate; intros; apply KG; now left|]. intros l w1 E.
  apply generate_parents in E. apply leaves_bind; [apply leaves_generate; intros x Hx; apply KG; right; now apply (generator_of_parents _ _ _ _ E)|].
  intros l2 w2 _. destruct (_ || _); [apply leaves_raise|]. apply leaves_bind; [apply leaves_lift|]. intros.
  apply leaves_bind; [apply leaves_lift|]. intros. apply leaves_ret.
Qed.
Lemma state_params_parents ids size st w r w' : state_params ids size st w = (Ok r, w') -> same_parents (w_gens w) (w_gens w').
Proof.
  unfold state_params. intros H. apply bindM_ok in H as (l & w1 & E & H). apply generate_parents in E.
  apply bindM_ok in H as (l2 & w2 & E2 & H). apply generate_parents in E2.
  destruct (_ || _); [discriminate|]. apply bindM_ok in H as (q & w3 & E3 & H). apply lift_ok in E3 as (_ & ->).
  apply bindM_ok in H as (q' & w3 & E3 & H). apply lift_ok in E3 as (_ & ->). injection H as _ <-. eapply same_parents_trans; eauto.
Qed.
Lemma leaves_all_params (K : object -> Prop) ids size states : forall w,
  (forall n st x, In (n, st) states -> generator_of w (fst st) x \/ generator_of w (snd st) x -> K x) ->
  leaves K w (all_params ids size states).
Proof.
  induction states as [|[n st] states IH]; intros w KG; cbn [all_params]; [apply leaves_ret|].
  apply leaves_bind; [apply leaves_state_params; intros x; apply (KG n st); now left|]. intros ps w1 E. apply state_params_parents in E.
  apply leaves_bind; [|intros; apply leaves_ret]. apply IH. intros n' st' x Hin H. apply (KG n' st'); [now right|].
  destruct H; [left|right]; now apply (generator_of_parents _ _ _ _ E).
Qed.

Lemma merged_origin order (default : state_gens) d m n st :
  merge_2_dicts_ord (order (union_keys [("default"%string, default)] d)) None [("default"%string, default)] d = Ok m ->
  In (n, st) m -> st = default \/ exists d' name, Some d = Some d' /\ In (name, st) d'.
Proof.
  intros H Hin. unfold merge_2_dicts_ord in H. apply mapr_ok_Forall2 in H.
  induction H as [|k r ks m' Hk _ IH]; [destruct Hin|]. destruct Hin as [->|Hin]; [|now apply IH]. clear IH.
  apply bind_ok in Hk as (v & Hv & [= -> ->]). unfold merged_value in Hv. cbn [dget] in Hv.
  destruct (keqb_spec n "default"%string) as [->|Nk]; destruct (dget _ d) eqn:E; try discriminate; try (injection Hv as <-; now left).
  right. exists d, n. split; [reflexivity|]. apply dget_In. congruence.
Qed.
Lemma leaves_create_story (K : object -> Prop) w order name p f default states t auto : 
  (auto = true -> K (OTimer t)) ->
  (forall st x, (st = default \/ exists d n, states = Some d /\ In (n, st) d) ->
     generator_of w (fst st) x \/ generator_of w (snd st) x -> K x) ->
  leaves K w (create_story order name p f default states t auto).
Proof.
  intros KT KG. unfold create_story. apply leaves_bind; [apply leaves_get|]. intros ss w1 [= <- <-].
  destruct (find_story _ _ _); [apply leaves_raise|]. apply leaves_bind.
  - unfold new_story. apply leaves_bind; [apply leaves_deref|]. intros po w1 H. apply deref_ok in H as (_ & ->).
    apply leaves_bind; [destruct states; [apply leaves_lift|apply leaves_ret]|]. intros merged w1 Hm.
    assert (X : w1 = w /\ forall n st, In (n, st) merged -> st = default \/ exists d n, states = Some d /\ In (n, st) d).
    { destruct states as [d|].
      - apply lift_ok in Hm as (Hm & ->). split; [reflexivity|]. intros n st. exact (merged_origin order default d merged n st Hm).
      - injection Hm as <- <-. split; [reflexivity|]. intros n st [[= _ <-]|[]]. now left. }
    destruct X as (-> & X). clear Hm.
    apply leaves_bind; [apply leaves_all_params; intros n st x Hin; apply (KG st x (X n st Hin))|]. intros cols w1 _.
    destruct auto; [|apply leaves_ret]. apply leaves_bind; [apply leaves_deref|]. intros g w2 _.
    apply leaves_bind; [apply leaves_lift|]. intros sg w3 _. destruct sg as (s' & g').
    apply leaves_bind; [apply leaves_put_tgen; auto|]. intros; apply leaves_ret.
  - intros s w1 _. apply leaves_bind; [apply leaves_get|]. intros ss w2 [= <- <-]. apply leaves_bind; [apply leaves_app_stories|].
    intros; apply leaves_ret.
Qed.

(** ** Happenings *)
Lemma notify_others l : forall gens t, ~ In t l -> nth_error (notify gens l) t = nth_error gens t.
Proof.
  induction l as [|i l IH]; intros gens t N; cbn; [reflexivity|]. cbn in N.
  change (nth_error (notify (match nth_error gens i with Some t0 => set_nth i (tgen_increment t0) gens | None => gens end) l) t = nth_error gens t).
  rewrite IH by tauto. destruct (nth_error gens i); [|reflexivity]. rewrite nth_error_set_nth.
  destruct (Nat.eqb_spec i t) as [->|]; [tauto|reflexivity].
Qed.
Lemma local_same {A} (K : object -> Prop) w (m : M A) x : local (fun _ => True) K w m -> ~ K x -> same x w (snd (m w)).
Proof. intros L N. apply (L w w (shape_refl w)); [intros y _; apply same_refl|exact N]. Qed.

Lemma op_same o d w x : ~ changes w o x -> same x w (snd (run_op o d w)).
Proof. intros N. apply (local_same (changes w o)); [|exact N]. apply local_op; auto. Qed.
Lemma exec_same a w x : ~ story_changes w a x -> same x w (snd (execute a w)).
Proof. intros N. apply (exec_local (fun _ => True) (story_changes w a) a w w); auto. intros y _. apply same_refl. Qed.

Lemma happening_same h w x : ~ happening_changes w h x -> same x w (snd (happen h w)).
Proof.
  intros N. destruct h as [a| |a ids|a ids|a ids states|a ids]; cbn [happen happening_changes] in *.
  - pose proof (exec_same a w x N) as H. destruct (execute a w) as [[l|e] w']; exact H.
  - cbn [snd]. unfold increment_clock, clock_increment. destruct x; cbn; try reflexivity; [|exfalso; apply N; now left].
    apply notify_others. intros H. apply N. right. eauto.
  - apply (local_same (fun y => y = OStory a)); [|exact N]. now apply local_force.
  - apply (local_same (fun y => y = OStory a \/ timer_of w a y)); [|exact N]. apply local_reset; auto.
  - apply (local_same (fun y => y = OStory a)); [|exact N]. now apply local_transit.
  - apply (local_same (fun y => y = OStory a)); [|exact N]. now apply local_tick.
Qed.

(** ** Calls *)
Lemma on_rel_same r f w x : x <> ORelationship r -> same x w (on_rel r f w).
Proof.
  intros N. unfold on_rel. destruct (nth_error (w_rels w) r); [|apply same_refl]. destruct (f r0); [|apply same_refl].
  destruct x; cbn; try reflexivity. rewrite nth_error_set_nth. match goal with |- context [r =? ?y] => destruct (Nat.eqb_spec r y) as [->|] end; [tauto|reflexivity].
Qed.
Lemma on_attr_same r f w x : x <> OAttribute r -> same x w (on_attr r f w).
Proof.
  intros N. unfold on_attr. destruct (nth_error (w_attrs w) r); [|apply same_refl]. destruct (f s); [|apply same_refl].
  destruct x; cbn; try reflexivity. rewrite nth_error_set_nth. match goal with |- context [r =? ?y] => destruct (Nat.eqb_spec r y) as [->|] end; [tauto|reflexivity].
Qed.
Lemma leaves_same {A} (K : object -> Prop) w (m : M A) x : leaves K w m -> present x w -> ~ K x -> same x w (snd (m w)).
Proof. intros L P. now apply L. Qed.

Lemma on_timer_same t obs w x : x <> OTimer t -> same x w (on_timer t obs w).
Proof.
  intros N. unfold on_timer. destruct (nth_error (w_tgens w) t) as [y|]; [|apply same_refl].
  destruct (tgen_generate y obs) as [[ts y']|]; [|apply same_refl].
  destruct x as [a|r|g|g|u|p|s| | | |]; cbn; try reflexivity. rewrite nth_error_set_nth.
  destruct (Nat.eqb_spec t u) as [->|]; [tauto|reflexivity].
Qed.
Lemma on_dependent_same g obs w x : ~ dependent_of w g x -> same x w (on_dependent g obs w).
Proof.
  intros N. unfold on_dependent. destruct (nth_error (w_dgens w) g) as [dg|] eqn:Hdg; [|apply same_refl].
  set (V := fun j => exists e, dg = DBulk e /\ built_from (w_gens w) e j).
  assert (HV : forall j, V j -> dependent_of w g (OGenerator j)).
  { intros j (e & -> & He). right. exists e. split; [exact Hdg|]. exists j. auto. }
  assert (C : closed V (w_gens w)).
  { intros i g0 p (e & -> & He) Hg Hp Hlt. exists e. split; [reflexivity|]. eapply built_from_closed; eauto. }
  pose proof (dgen_alike (fun _ => True) V (w_gens w) (w_gens w) dg obs C
    (fun e E => ex_intro _ e (conj E (bf_self _ e))) (fun _ _ => I) (fun j _ => eq_refl)) as H.
  destruct (dgen_generate (w_gens w) dg obs) as [[[vs d'] gens]|]; [|apply same_refl].
  destruct H as (_ & _ & _ & _ & _ & L).
  destruct x as [a|r|j|j|u|p|s| | | |]; cbn; try reflexivity.
  - apply L. intros Vj. apply N, HV, Vj.
  - rewrite nth_error_set_nth. destruct (Nat.eqb_spec g j) as [->|]; [|reflexivity]. exfalso. apply N. now left.
Qed.

Lemma call_same c w x : present x w -> ~ call_changes w c x -> same x w (after_call c w).
Proof.
  intros P N. destruct c as [g|g|t reg|n g s i|p n s|p n g k|p n g|p n v g rel|p d|p n wt|a s|r f t|r f t|r f t wt|r f t|r f pop dis oto wt
    |r rq pop dis|a ids ad|a f|ord n p f d st t au|a ops|a ops|i g|g n|g obs|t obs| |h]; cbn [after_call call_changes] in *; unfold ignore.
  - destruct x; cbn in *; auto using same_app.
  - destruct x; cbn in *; auto using same_app.
  - destruct reg; destruct x; cbn in *; auto using same_app. exfalso. apply N. now split.
  - apply (leaves_same (call_changes w (CPopulation n g s i))); try assumption. apply leaves_create_population; [now left|]. intros g' y -> H. right. eauto.
  - apply (leaves_same (call_changes w (CRelationship p n s))); try assumption. apply leaves_create_relationship; cbn; auto.
  - apply (leaves_same (call_changes w (CStock p n g k))); try assumption. apply leaves_stock; cbn; auto.
  - apply (leaves_same (call_changes w (CStockGrouped p n g))); try assumption. apply leaves_stock_grp; cbn; auto.
  - apply (leaves_same (call_changes w (CAttribute p n v g rel))); try assumption. apply leaves_create_attribute; cbn; [auto|eauto|].
    intros po n' r Hp Hr Hd. right. right. exists po, n', r. auto.
  - apply (leaves_same (call_changes w (CPopulationUpdate p d))); try assumption. apply leaves_pop_update; cbn; auto.
  - apply (leaves_same (call_changes w (CSelectMember p n wt))); try assumption. now apply leaves_select.
  - apply (leaves_same (call_changes w (CAttributeUpdate a s))); try assumption. now apply leaves_update_attr.
  - apply (leaves_same (call_changes w (CRelAdd r f t))); try assumption. now apply leaves_rel_add.
  - apply (leaves_same (call_changes w (CRelAddGrouped r f t))); try assumption. now apply leaves_rel_add_grouped.
  - now apply on_rel_same.
  - now apply on_rel_same.
  - now apply on_rel_same.
  - now apply on_rel_same.
  - now apply on_attr_same.
  - now apply on_attr_same.
  - apply (leaves_same (call_changes w (CStory ord n p f d st t au))); try assumption. apply leaves_create_story; cbn; [auto|]. intros s y H H'. right. eauto.
  - apply (leaves_same (fun y => y = OStory a)); try assumption. unfold set_operations. apply leaves_bind; [apply leaves_deref|]. intros s w1 _.
    apply leaves_bind; [apply leaves_get|]. intros g w2 [= <- <-]. apply leaves_bind; [apply leaves_get|]. intros gs w2 [= <- <-].
    apply leaves_bind; [apply leaves_app_gens|]. intros; now apply leaves_put_story.
  - apply (leaves_same (fun y => y = OStory a)); try assumption. unfold append_operations. apply leaves_bind; [apply leaves_deref|]. intros s w1 _.
    now apply leaves_put_story.
  - apply (leaves_same (fun y => y = OGeneratorNames)); try assumption. unfold attach_generator. apply leaves_bind; [apply leaves_get|].
    intros l w1 [= <- <-]. destruct (dmem _ _); [apply leaves_raise|now apply leaves_gen_names].
  - apply (leaves_same (generator_of w g)); try assumption. now apply leaves_generate.
  - now apply on_dependent_same.
  - now apply on_timer_same.
  - apply (leaves_same (fun y => y = OSeeder)); try assumption. now apply leaves_seeder.
  - now apply happening_same.
Qed.

(** ** Histories of independent happenings *)
Definition happened (U W : object -> Prop) (h : happening) (w1 w2 : world) : Prop :=
  outcome h w1 = outcome h w2 /\ agree U (snd (happen h w1)) (snd (happen h w2)) /\ shape w1 (snd (happen h w1)) /\
  (forall x, ~ W x -> same x w1 (snd (happen h w1))).

Lemma agree_nth (U : nat -> Prop) l : forall (g1 g2 : list tgen), (forall t, In t l -> U t) ->
  (forall t, U t -> nth_error g2 t = nth_error g1 t) -> forall t, U t -> nth_error (notify g2 l) t = nth_error (notify g1 l) t.
Proof.
  induction l as [|i l IH]; intros g1 g2 Hl H t Ut; [now apply H|].
  change (nth_error (notify (match nth_error g2 i with Some t0 => set_nth i (tgen_increment t0) g2 | None => g2 end) l) t =
          nth_error (notify (match nth_error g1 i with Some t0 => set_nth i (tgen_increment t0) g1 | None => g1 end) l) t).
  apply IH; [intros; apply Hl; now right| |exact Ut]. intros u Uu. rewrite (H i) by (apply Hl; now left).
  destruct (nth_error g1 i); [|now apply H]. rewrite !nth_error_set_nth, (H u Uu). reflexivity.
Qed.

Lemma local_happened {A} (U W : object -> Prop) w1 w2 (m : M A) : local U W w1 m -> agree U w1 w2 ->
  match fst (m w1) with Ok _ => Ok [] | Err e => Err e end = match fst (m w2) with Ok _ => Ok [] | Err e => Err e end :> result logs /\
  agree U (snd (m w1)) (snd (m w2)) /\ shape w1 (snd (m w1)) /\ (forall x, ~ W x -> same x w1 (snd (m w1))).
Proof. intros L A'. destruct (L w1 w2 (shape_refl _) A') as (E1 & E2 & E3 & E4). rewrite E1. auto. Qed.

Lemma happening_local (U W : object -> Prop) h w1 w2 :
  (forall x, happening_uses w1 h x -> U x) -> (forall x, happening_changes w1 h x -> W x) -> agree U w1 w2 -> happened U W h w1 w2.
Proof.
  intros HU HW A'. unfold happened. destruct h as [a| |a ids|a ids|a ids states|a ids]; cbn [outcome happen happening_uses happening_changes] in *.
  - destruct (exec_local U W a w1 w2 HU HW A') as (E1 & E2 & E3 & E4).
    destruct (execute a w1) as [[?|?] ?], (execute a w2) as [[?|?] ?]; cbn in *; auto; discriminate.
  - cbn [fst snd]. split; [reflexivity|]. pose proof (A' OClock (HU OClock (or_introl eq_refl))) as Ec. cbn in Ec.
    unfold increment_clock, clock_increment. rewrite Ec. split; [|split].
    + intros x Ux. pose proof (A' x Ux) as Ax. destruct x; cbn in *; auto.
      apply (agree_nth (fun t => U (OTimer t))); [intros u Hu; apply HU; right; eauto| |exact Ux].
      intros u Uu. exact (A' (OTimer u) Uu).
    + repeat apply conj; try reflexivity. apply same_parents_refl.
    + intros x Nx. destruct x; cbn; try reflexivity; [|exfalso; apply Nx, HW; now left].
      apply notify_others. intros H. apply Nx, HW. right. eauto.
  - apply local_happened; [|exact A']. apply local_force; auto.
  - apply local_happened; [|exact A']. apply local_reset; auto.
  - apply local_happened; [|exact A']. apply local_transit; auto.
  - apply local_happened; [|exact A']. apply local_tick; auto.
Qed.

(** footprints do not change along a history *)
Lemma uses_shape w w' o x : shape w w' -> uses w o x -> uses w' o x.
Proof.
  intros S. induction o as [o Hb|ops IH] using op_ind'.
  - destruct o; try exact (changes_shape w w' _ x S); cbn [uses]; auto.
    + intros [H|H]; [now left|right]. eauto using attribute_of_shape.
    + exfalso. eapply Hb. reflexivity.
  - cbn. induction IH as [|o ops H _ IH']; [tauto|]. intros [H'|H']; [left; exact (H H')|right; exact (IH' H')].
Qed.
Lemma story_objects_shape (f : world -> op -> object -> Prop) w w' a x : (forall o, f w o x -> f w' o x) -> shape w w' ->
  story_objects (f w) w a x -> story_objects (f w') w' a x.
Proof.
  intros Hf S [H|[H|(s & o & H1 & H2 & H3)]]; [now left|right; left; eapply timer_of_shape; eauto|]. right. right.
  destruct S as (_ & _ & _ & _ & S & _). specialize (S a). rewrite H1 in S. cbn in S.
  destruct (nth_error (w_stories w') a) as [s'|] eqn:E; [|discriminate]. injection S as S1 S2. exists s', o.
  split; [reflexivity|]. split; [|now apply Hf]. now rewrite S2.
Qed.
Lemma happening_changes_shape w w' h x : shape w w' -> happening_changes w h x -> happening_changes w' h x.
Proof.
  intros S. destruct h; cbn; auto.
  - apply (story_objects_shape changes); [|exact S]. intros o. now apply changes_shape.
  - destruct S as (_ & _ & _ & _ & _ & S). now rewrite S.
  - intros [H|H]; [now left|right]. eapply timer_of_shape; eauto.
Qed.
Lemma happening_uses_shape w w' h x : shape w w' -> happening_uses w h x -> happening_uses w' h x.
Proof.
  intros S. destruct h; try exact (happening_changes_shape w w' _ x S). cbn.
  apply (story_objects_shape uses); [|exact S]. intros o. now apply uses_shape.
Qed.

Lemma outcomes_independent (U : object -> Prop) mine w l : forall w1 w2, shape w w1 -> shape w w2 -> agree U w1 w2 ->
  (forall h, In h l -> mine h = true -> forall x, happening_uses w h x -> U x) ->
  (forall h, In h l -> mine h = false -> forall x, happening_changes w h x -> ~ U x) ->
  outcomes mine w1 l = outcomes mine w2 (filter mine l) /\
  agree U (after w1 l) (after w2 (filter mine l)).
Proof.
  induction l as [|h l IH]; intros w1 w2 S1 S2 A' Hm Ho; cbn [outcomes filter after]; [split; [reflexivity|exact A']|].
  assert (Hm' : forall h, In h l -> mine h = true -> forall x, happening_uses w h x -> U x) by (intros; eapply Hm; eauto; now right).
  assert (Ho' : forall h, In h l -> mine h = false -> forall x, happening_changes w h x -> ~ U x) by (intros; eapply Ho; eauto; now right).
  destruct (mine h) eqn:E.
  - destruct (happening_local U (fun _ => True) h w1 w2) as (E1 & E2 & E3 & _); auto.
    { intros x Hx. apply (Hm h (or_introl eq_refl) E). eapply happening_uses_shape; [apply shape_sym; exact S1|exact Hx]. }
    destruct (happening_local (fun _ => True) (fun _ => True) h w2 w2) as (_ & _ & F3 & _); auto. { intros x _. apply same_refl. }
    cbn [outcomes after]. rewrite E, E1.
    destruct (IH _ _ (shape_trans _ _ _ S1 E3) (shape_trans _ _ _ S2 F3) E2 Hm' Ho') as (G1 & G2). split; [|exact G2]. cbn [app]. now f_equal.
  - destruct (happening_local (fun _ => True) (fun _ => True) h w1 w1) as (_ & _ & F3 & _); auto. { intros x _. apply same_refl. }
    cbn [app]. apply IH; auto; [exact (shape_trans _ _ _ S1 F3)|]. intros x Ux. eapply same_trans; [|exact (A' x Ux)].
    apply same_sym, happening_same. intros Hc. apply (Ho h (or_introl eq_refl) E x); [|exact Ux].
    eapply happening_changes_shape; [apply shape_sym; exact S1|exact Hc].
Qed.
