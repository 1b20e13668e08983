(** What an operation can see and change. *)
From Verif Require Import Base BaseFacts Rng Utils Relationship RelationshipFacts Frame Gens Clock Attribute AttributeFacts World Story Ops OpsFacts
  StoryFacts SpecLocal.

(** ** Generators *)
Definition parents (g : gen) : list nat :=
  match g with GMap p _ => [p] | GBulk p e => [p; e] | _ => [] end.

Definition agree_on {A} (U : nat -> Prop) (h1 h2 : list A) : Prop := forall j, U j -> nth_error h2 j = nth_error h1 j.
Definition same_parents (h1 h2 : list gen) : Prop :=
  forall j, option_map parents (nth_error h2 j) = option_map parents (nth_error h1 j).
Definition closed (U : nat -> Prop) (h : list gen) : Prop :=
  forall i g p, U i -> nth_error h i = Some g -> In p (parents g) -> p < i -> U p.

Lemma closed_same U h1 h2 : same_parents h1 h2 -> closed U h1 -> closed U h2.
Proof.
  intros S C i g p Ui Hg Hp Hlt. specialize (S i). rewrite Hg in S. cbn in S.
  destruct (nth_error h1 i) as [g'|] eqn:E; [|discriminate]. injection S as S. eapply C; eauto. now rewrite <- S.
Qed.

Lemma nth_error_set_nth {A} i (x : A) l j :
  nth_error (set_nth i x l) j = if i =? j then option_map (fun _ => x) (nth_error l j) else nth_error l j.
Proof. revert i j. induction l as [|y l IH]; intros [|i] [|j]; cbn; try reflexivity; [now destruct (i =? j)|apply IH]. Qed.

(** Both calls fail alike, or give the same values and heaps that agree again. *)
Definition alike (U V : nat -> Prop) (h1 : list gen) (r1 r2 : result (list val * list gen)) : Prop :=
  match r1, r2 with
  | Ok (v1, h1'), Ok (v2, h2') =>
      v1 = v2 /\ agree_on U h1' h2' /\ same_parents h1 h1' /\ (forall j, ~ V j -> nth_error h1' j = nth_error h1 j)
  | Err e1, Err e2 => e1 = e2
  | _, _ => False
  end.

Lemma gen_step_parents g n vs g' : gen_step g n = Ok (vs, g') -> parents g' = parents g.
Proof.
  destruct g; cbn [gen_step]; intros H; try discriminate.
  - now injection H as _ <-.
  - destruct (_ =? _)%Z; [|discriminate]. now injection H as _ <-.
  - destruct bound; apply bind_ok in H as ([? ?] & _ & [= _ <-]); reflexivity.
  - destruct (n <? 0)%Z; [discriminate|]. destruct (draws _ _ _). now injection H as _ <-.
  - now injection H as _ <-.
  - now injection H as _ <-.
  - destruct (n <? 0)%Z; [discriminate|]. apply bind_ok in H as ([? ?] & _ & H).
    apply bind_ok in H as (? & _ & [= _ <-]). reflexivity.
Qed.

Lemma same_parents_refl h : same_parents h h.
Proof. intros j. reflexivity. Qed.
Lemma same_parents_trans a b c : same_parents a b -> same_parents b c -> same_parents a c.
Proof. intros H1 H2 j. now rewrite H2, H1. Qed.

Lemma heap_calls_alike (U V : nat -> Prop) (call : list gen -> Z -> result (list val * list gen)) sizes :
  (forall h1 h2 n, closed V h1 -> agree_on U h1 h2 -> alike U V h1 (call h1 n) (call h2 n)) ->
  forall h1 h2, closed V h1 -> agree_on U h1 h2 ->
  match heap_calls call h1 sizes, heap_calls call h2 sizes with
  | Ok (v1, h1'), Ok (v2, h2') =>
      v1 = v2 /\ agree_on U h1' h2' /\ same_parents h1 h1' /\ (forall j, ~ V j -> nth_error h1' j = nth_error h1 j)
  | Err e1, Err e2 => e1 = e2
  | _, _ => False
  end.
Proof.
  intros Hc. induction sizes as [|n sizes IH]; intros h1 h2 C A; cbn [heap_calls].
  - split; [reflexivity|]. split; [exact A|]. split; [apply same_parents_refl|auto].
  - specialize (Hc h1 h2 n C A). destruct (call h1 n) as [[v1 h1']|]; destruct (call h2 n) as [[v2 h2']|]; cbn in Hc |- *; try tauto.
    destruct Hc as (-> & A1 & S1 & L1). specialize (IH h1' h2' (closed_same _ _ _ S1 C) A1).
    destruct (heap_calls call h1' sizes) as [[w1 k1]|]; destruct (heap_calls call h2' sizes) as [[w2 k2]|]; cbn in IH |- *; try tauto.
    destruct IH as (-> & A2 & S2 & L2). split; [reflexivity|]. split; [exact A2|]. split; [eapply same_parents_trans; eauto|].
    intros j Hj. rewrite L2, L1; auto.
Qed.

Lemma heap_generate_alike (U V : nat -> Prop) fuel : forall h1 h2 i n, closed V h1 -> V i -> (forall j, V j -> U j) -> agree_on U h1 h2 ->
  alike U V h1 (heap_generate fuel h1 i n) (heap_generate fuel h2 i n).
Proof.
  induction fuel as [|fuel IH]; intros h1 h2 i n C Vi VU A; cbn [heap_generate]; [reflexivity|].
  rewrite (A i (VU i Vi)). destruct (nth_error h1 i) as [g|] eqn:Eg; [|reflexivity].
  assert (Base : alike U V h1 (let! (vs, g') := gen_step g n in Ok (vs, set_nth i g' h1))
                            (let! (vs, g') := gen_step g n in Ok (vs, set_nth i g' h2))).
  { destruct (gen_step g n) as [[vs g']|] eqn:E; cbn; [|reflexivity]. apply gen_step_parents in E.
    split; [reflexivity|]. split; [|split].
    - intros j Uj. rewrite !nth_error_set_nth, (A j Uj). reflexivity.
    - intros j. rewrite nth_error_set_nth. destruct (Nat.eqb_spec i j) as [<-|]; [|reflexivity]. rewrite Eg. cbn. now rewrite E.
    - intros j Nj. rewrite nth_error_set_nth. destruct (Nat.eqb_spec i j) as [<-|]; [tauto|reflexivity]. }
  destruct g; try exact Base; clear Base.
  - destruct (Nat.ltb_spec parent i) as [Hlp|_]; [|reflexivity].
    assert (Up : V parent) by (eapply C; [exact Vi|exact Eg|now left|assumption]).
    specialize (IH h1 h2 parent n C Up VU A).
    destruct (heap_generate fuel h1 parent n) as [[v1 h1']|]; destruct (heap_generate fuel h2 parent n) as [[v2 h2']|]; cbn in IH |- *; try tauto.
    destruct IH as (-> & A1 & S1 & L1).
    destruct (match f with MapElem f => mapr f v2 | MapVect f => f v2 end); cbn; auto.
  - destruct (Nat.ltb_spec parent i) as [Hlp|_]; [|reflexivity]. destruct (Nat.ltb_spec elem i) as [Hle|_]; [|reflexivity]. cbn [andb].
    assert (Up : V parent) by (eapply C; [exact Vi|exact Eg|now left|assumption]).
    assert (Ue : V elem) by (eapply C; [exact Vi|exact Eg|right; now left|assumption]).
    pose proof (IH h1 h2 parent n C Up VU A) as H.
    destruct (heap_generate fuel h1 parent n) as [[v1 h1']|]; destruct (heap_generate fuel h2 parent n) as [[v2 h2']|]; cbn in H |- *; try tauto.
    destruct H as (-> & A1 & S1 & L1). destruct (mapr as_int v2) as [ns|]; cbn; [|reflexivity].
    pose proof (heap_calls_alike U V (fun h n => heap_generate fuel h elem n) ns
                  (fun a b m Ca Ab => IH a b elem m Ca Ue VU Ab) h1' h2' (closed_same _ _ _ S1 C) A1) as H.
    destruct (heap_calls _ h1' ns) as [[w1 k1]|]; destruct (heap_calls _ h2' ns) as [[w2 k2]|]; cbn in H |- *; try tauto.
    destruct H as (-> & A2 & S2 & L2). split; [reflexivity|]. split; [exact A2|].
    split; [eapply same_parents_trans; eauto|]. intros j Hj. rewrite L2, L1; auto.
Qed.

Lemma random_values_alike (U V : nat -> Prop) h1 h2 i n q : closed V h1 -> V i -> (forall j, V j -> U j) -> agree_on U h1 h2 ->
  alike U V h1 (random_values h1 i n q) (random_values h2 i n q).
Proof.
  intros C Vi VU A. unfold random_values, gen_generate. destruct q as [qs|]; [|now apply heap_generate_alike].
  destruct (mapr as_int qs) as [ns|]; cbn [bind]; [|reflexivity].
  pose proof (heap_generate_alike U V (S i) h1 h2 i (zsum ns) C Vi VU A) as H.
  destruct (heap_generate (S i) h1 i _) as [[v1 h1']|]; destruct (heap_generate (S i) h2 i _) as [[v2 h2']|]; cbn in H; try tauto;
    cbn [bind].
  destruct H as (-> & H). destruct (existsb _ ns); cbn; auto.
Qed.

Lemma dgen_alike (U V : nat -> Prop) h1 h2 d obs : closed V h1 -> (forall e, d = DBulk e -> V e) -> (forall j, V j -> U j) -> agree_on U h1 h2 ->
  match dgen_generate h1 d obs, dgen_generate h2 d obs with
  | Ok (v1, d1, h1'), Ok (v2, d2, h2') =>
      v1 = v2 /\ d1 = d2 /\ (forall e, d1 = DBulk e <-> d = DBulk e) /\
      agree_on U h1' h2' /\ same_parents h1 h1' /\ (forall j, ~ V j -> nth_error h1' j = nth_error h1 j)
  | Err e1, Err e2 => e1 = e2
  | _, _ => False
  end.
Proof.
  intros C Ud VU A. destruct d as [v|proba st|elem]; cbn [dgen_generate].
  - do 2 (split; [reflexivity|]). split; [tauto|]. split; [exact A|]. split; [apply same_parents_refl|auto].
  - destruct (draws _ _ _) as [us st']. destruct (mapr proba obs); cbn [bind]; [|reflexivity].
    do 2 (split; [reflexivity|]). split; [intros e; split; discriminate|]. split; [exact A|]. split; [apply same_parents_refl|auto].
  - destruct (mapr as_int obs) as [ns|]; cbn [bind]; [|reflexivity].
    pose proof (heap_calls_alike U V (fun h n => gen_generate h elem n) ns
                  (fun a b m Ca Ab => heap_generate_alike U V (S elem) a b elem m Ca (Ud elem eq_refl) VU Ab) h1 h2 C A) as H.
    destruct (heap_calls _ h1 ns) as [[w1 k1]|]; destruct (heap_calls _ h2 ns) as [[w2 k2]|]; cbn in H |- *; try tauto.
    destruct H as (-> & H). split; [reflexivity|]. split; [reflexivity|]. split; [tauto|]. exact H.
Qed.

(** ** The relational reading of computations *)
Definition fixed (s : story) : nat * list op := (st_tgen s, st_ops s).
Definition shape (w0 w : world) : Prop :=
  w_prng w = w_prng w0 /\
  same_parents (w_gens w0) (w_gens w) /\
  (forall g e, nth_error (w_dgens w) g = Some (DBulk e) <-> nth_error (w_dgens w0) g = Some (DBulk e)) /\
  (forall p, option_map p_attrs (nth_error (w_pops w) p) = option_map p_attrs (nth_error (w_pops w0) p)) /\
  (forall a, option_map fixed (nth_error (w_stories w) a) = option_map fixed (nth_error (w_stories w0) a)) /\
  c_listeners (w_clock w) = c_listeners (w_clock w0).

Lemma shape_refl w : shape w w.
Proof. repeat apply conj; try reflexivity. apply same_parents_refl. Qed.
Lemma shape_trans a b c : shape a b -> shape b c -> shape a c.
Proof.
  intros (A0 & A1 & A2 & A3 & A4 & A5) (B0 & B1 & B2 & B3 & B4 & B5). repeat apply conj.
  - congruence.
  - eapply same_parents_trans; eauto.
  - intros g e. now rewrite B2, A2.
  - intros p. now rewrite B3, A3.
  - intros p. now rewrite B4, A4.
  - congruence.
Qed.

Definition agree (U : object -> Prop) (w1 w2 : world) : Prop := forall x, U x -> same x w1 w2.

Lemma same_refl x w : same x w w.
Proof. destruct x; reflexivity. Qed.
Lemma same_sym x w1 w2 : same x w1 w2 -> same x w2 w1.
Proof. destruct x; cbn; congruence. Qed.
Lemma same_trans x w1 w2 w3 : same x w1 w2 -> same x w2 w3 -> same x w1 w3.
Proof. destruct x; cbn; congruence. Qed.

Section Local.
  Context (U W : object -> Prop) (w0 : world).

  Definition local {A} (m : M A) : Prop := forall w1 w2, shape w0 w1 -> agree U w1 w2 ->
    fst (m w1) = fst (m w2) /\ agree U (snd (m w1)) (snd (m w2)) /\
    shape w1 (snd (m w1)) /\ (forall x, ~ W x -> same x w1 (snd (m w1))).

  Lemma local_pure {A} (r : result A) (m : M A) : (forall w, m w = (r, w)) -> local m.
  Proof. intros H w1 w2 S A'. rewrite !H. cbn. split; [reflexivity|]. split; [exact A'|]. split; [apply shape_refl|]. intros; apply same_refl. Qed.
  Lemma local_ret {A} (a : A) : local (ret a). Proof. now apply (local_pure (Ok a)). Qed.
  Lemma local_raise {A} e : local (@raise A e). Proof. now apply (local_pure (Err e)). Qed.
  Lemma local_lift {A} (r : result A) : local (lift r). Proof. now apply (local_pure r). Qed.

  Lemma local_bind {A B} (m : M A) (f : A -> M B) : local m -> (forall a, local (f a)) -> local (bindM m f).
  Proof.
    intros Hm Hf w1 w2 S A'. destruct (Hm w1 w2 S A') as (E & A1 & S1 & L1). unfold bindM.
    destruct (m w1) as [[a|e] w1']; destruct (m w2) as [[b|e'] w2']; cbn in *; try discriminate.
    - injection E as <-. destruct (Hf a w1' w2' (shape_trans _ _ _ S S1) A1) as (E2 & A2 & S2 & L2).
      split; [exact E2|]. split; [exact A2|]. split; [eapply shape_trans; eauto|].
      intros x Hx. eapply same_trans; eauto.
    - injection E as <-. auto.
  Qed.

  (** the continuation may use the shape of the world it runs in *)
  Lemma local_at {A} (m : M A) : (forall w, shape w0 w -> exists m', local m' /\ forall w2, agree U w w2 -> m w2 = m' w2) -> local m.
  Proof.
    intros H w1 w2 S A'. destruct (H w1 S) as (m' & Hm & E). rewrite (E w1), (E w2); [now apply Hm|exact A'|intros x _; apply same_refl].
  Qed.

  Lemma local_deref_then {A B} (heap : world -> list A) (o : nat -> object) i (k : A -> M B) :
    (forall w1 w2, same (o i) w1 w2 <-> nth_error (heap w2) i = nth_error (heap w1) i) -> U (o i) ->
    (forall w x, shape w0 w -> nth_error (heap w) i = Some x ->
       forall w2, agree U w w2 ->
         fst (k x w) = fst (k x w2) /\ agree U (snd (k x w)) (snd (k x w2)) /\
         shape w (snd (k x w)) /\ (forall y, ~ W y -> same y w (snd (k x w)))) ->
    local (bindM (deref heap i) k).
  Proof.
    intros Ho Ui Hk w1 w2 S A'. pose proof (proj1 (Ho w1 w2) (A' _ Ui)) as E. unfold bindM, deref.
    rewrite E. destruct (nth_error (heap w1) i) as [x|] eqn:Ex.
    - now apply Hk.
    - cbn. split; [reflexivity|]. split; [exact A'|]. split; [apply shape_refl|]. intros; apply same_refl.
  Qed.

  Lemma local_deref {A} (heap : world -> list A) (o : nat -> object) i :
    (forall w1 w2, same (o i) w1 w2 <-> nth_error (heap w2) i = nth_error (heap w1) i) -> U (o i) -> local (deref heap i).
  Proof.
    intros Ho Ui w1 w2 S A'. pose proof (proj1 (Ho w1 w2) (A' _ Ui)) as E. unfold deref.
    rewrite E. destruct (nth_error (heap w1) i) as [x|] eqn:Ex; cbn;
      (split; [reflexivity|]; split; [exact A'|]; split; [apply shape_refl|]; intros; apply same_refl).
  Qed.
  Lemma local_deref_rel r : U (ORelationship r) -> local (deref w_rels r).
  Proof. apply (local_deref _ ORelationship). reflexivity. Qed.
  Lemma local_deref_attr r : U (OAttribute r) -> local (deref w_attrs r).
  Proof. apply (local_deref _ OAttribute). reflexivity. Qed.
  Lemma local_deref_pop r : U (OPopulation r) -> local (deref w_pops r).
  Proof. apply (local_deref _ OPopulation). reflexivity. Qed.
  Lemma local_deref_story r : U (OStory r) -> local (deref w_stories r).
  Proof. apply (local_deref _ OStory). reflexivity. Qed.
  Lemma local_deref_dgen r : U (ODependent r) -> local (deref w_dgens r).
  Proof. apply (local_deref _ ODependent). reflexivity. Qed.

  (** ** Writes *)
  Lemma agree_set {A} i (x : A) l1 l2 j : (nth_error l2 j = nth_error l1 j) ->
    nth_error (set_nth i x l2) j = nth_error (set_nth i x l1) j.
  Proof. intros H. rewrite !nth_error_set_nth, H. reflexivity. Qed.

  Lemma local_put_rel r x : W (ORelationship r) -> local (put_rel r x).
  Proof.
    intros Wr w1 w2 S A'. unfold put_rel, modify. cbn [fst snd]. split; [reflexivity|]. split; [|split].
    - intros y Uy. specialize (A' y Uy). destruct y; cbn in *; auto using agree_set.
    - split; [reflexivity|]. split; [apply same_parents_refl|]. repeat apply conj; reflexivity.
    - intros y Ny. destruct y; cbn; try reflexivity. rewrite nth_error_set_nth. destruct (Nat.eqb_spec r r0) as [<-|]; [tauto|reflexivity].
  Qed.
  Lemma local_put_attr r x : W (OAttribute r) -> local (put_attr r x).
  Proof.
    intros Wr w1 w2 S A'. unfold put_attr, modify. cbn [fst snd]. split; [reflexivity|]. split; [|split].
    - intros y Uy. specialize (A' y Uy). destruct y; cbn in *; auto using agree_set.
    - split; [reflexivity|]. split; [apply same_parents_refl|]. repeat apply conj; reflexivity.
    - intros y Ny. destruct y; cbn; try reflexivity. rewrite nth_error_set_nth. destruct (Nat.eqb_spec r a) as [<-|]; [tauto|reflexivity].
  Qed.
  Lemma local_put_tgen r x : W (OTimer r) -> local (put_tgen r x).
  Proof.
    intros Wr w1 w2 S A'. unfold put_tgen, modify. cbn [fst snd]. split; [reflexivity|]. split; [|split].
    - intros y Uy. specialize (A' y Uy). destruct y; cbn in *; auto using agree_set.
    - split; [reflexivity|]. split; [apply same_parents_refl|]. repeat apply conj; reflexivity.
    - intros y Ny. destruct y; cbn; try reflexivity. rewrite nth_error_set_nth. destruct (Nat.eqb_spec r t) as [<-|]; [tauto|reflexivity].
  Qed.

  (** objects with a shape *)
  Lemma put_pop_local r po x w1 w2 : W (OPopulation r) -> nth_error (w_pops w1) r = Some po -> p_attrs x = p_attrs po -> agree U w1 w2 ->
    fst (put_pop r x w1) = fst (put_pop r x w2) /\ agree U (snd (put_pop r x w1)) (snd (put_pop r x w2)) /\
    shape w1 (snd (put_pop r x w1)) /\ (forall y, ~ W y -> same y w1 (snd (put_pop r x w1))).
  Proof.
    intros Wr Hr Hx A'. unfold put_pop, modify. cbn [fst snd]. split; [reflexivity|]. split; [|split].
    - intros y Uy. specialize (A' y Uy). destruct y; cbn in *; auto using agree_set.
    - repeat apply conj; try reflexivity; [apply same_parents_refl|]. intros p. cbn. rewrite nth_error_set_nth.
      destruct (Nat.eqb_spec r p) as [<-|]; [|reflexivity]. rewrite Hr. cbn. now rewrite Hx.
    - intros y Ny. destruct y; cbn; try reflexivity. rewrite nth_error_set_nth. destruct (Nat.eqb_spec r p) as [<-|]; [tauto|reflexivity].
  Qed.
  Lemma put_story_local r po x w1 w2 : W (OStory r) -> nth_error (w_stories w1) r = Some po -> fixed x = fixed po -> agree U w1 w2 ->
    fst (put_story r x w1) = fst (put_story r x w2) /\ agree U (snd (put_story r x w1)) (snd (put_story r x w2)) /\
    shape w1 (snd (put_story r x w1)) /\ (forall y, ~ W y -> same y w1 (snd (put_story r x w1))).
  Proof.
    intros Wr Hr Hx A'. unfold put_story, modify. cbn [fst snd]. split; [reflexivity|]. split; [|split].
    - intros y Uy. specialize (A' y Uy). destruct y; cbn in *; auto using agree_set.
    - repeat apply conj; try reflexivity; [apply same_parents_refl|]. intros p. cbn. rewrite nth_error_set_nth.
      destruct (Nat.eqb_spec r p) as [<-|]; [|reflexivity]. rewrite Hr. cbn. now rewrite Hx.
    - intros y Ny. destruct y; cbn; try reflexivity. rewrite nth_error_set_nth. destruct (Nat.eqb_spec r s) as [<-|]; [tauto|reflexivity].
  Qed.

  (** ** Generators *)
  Lemma built_from_closed g : closed (built_from (w_gens w0) g) (w_gens w0).
  Proof.
    intros i g0 p Hi. revert g0 p.
    induction Hi as [i|i p' f j E L H IH|i p' e j E L H IH|i p' e j E L H IH]; intros g0 p Hg Hp Hlt.
    - destruct g0; cbn in Hp; try tauto.
      + destruct Hp as [<-|[]]. eapply bf_map; [exact Hg|exact Hlt|apply bf_self].
      + destruct Hp as [<-|[<-|[]]]; [eapply bf_bulk_parent|eapply bf_bulk_elem]; try exact Hg; try exact Hlt; apply bf_self.
    - eapply bf_map; eauto.
    - eapply bf_bulk_parent; eauto.
    - eapply bf_bulk_elem; eauto.
  Qed.

  (** a call that reads and replaces the heap of generators *)
  Lemma local_gens {A} g (call : list gen -> result (A * list gen)) :
    (forall x, generator_of w0 g x -> U x) -> (forall x, generator_of w0 g x -> W x) ->
    (forall h1 h2, let V := built_from (w_gens w0) g in let UU := fun j => U (OGenerator j) in
       closed V h1 -> V g -> (forall j, V j -> UU j) -> agree_on UU h1 h2 ->
       match call h1, call h2 with
       | Ok (v1, h1'), Ok (v2, h2') =>
           v1 = v2 /\ agree_on UU h1' h2' /\ same_parents h1 h1' /\ (forall j, ~ V j -> nth_error h1' j = nth_error h1 j)
       | Err e1, Err e2 => e1 = e2
       | _, _ => False
       end) ->
    local (let* gens := get w_gens in
           let* (a, gens') := lift (call gens) in
           let* _ := modify (set_gens gens') in ret a).
  Proof.
    intros HU HW Hc w1 w2 S A'.
    assert (VU : forall j, built_from (w_gens w0) g j -> U (OGenerator j)) by (intros j Hj; apply HU; exists j; auto).
    specialize (Hc (w_gens w1) (w_gens w2) (closed_same _ _ _ (proj1 (proj2 S)) (built_from_closed g)) (bf_self _ g) VU
                  (fun j Uj => A' (OGenerator j) Uj)). cbv zeta in Hc.
    unfold bindM, get, lift, modify, ret.
    destruct (call (w_gens w1)) as [[v1 h1]|]; destruct (call (w_gens w2)) as [[v2 h2]|]; cbn; try tauto.
    - destruct Hc as (-> & Ag & Sp & L). split; [reflexivity|]. split; [|split].
      + intros x Ux. specialize (A' x Ux). destruct x; cbn in *; auto.
      + split; [reflexivity|]. split; [exact Sp|]. repeat apply conj; reflexivity.
      + intros x Nx. destruct x; cbn; try reflexivity. apply L. intros Hb. apply Nx, HW. exists g0. auto.
    - split; [congruence|]. split; [exact A'|]. split; [apply shape_refl|]. intros; apply same_refl.
  Qed.

  Lemma local_generate g n : (forall x, generator_of w0 g x -> U x) -> (forall x, generator_of w0 g x -> W x) ->
    local (generate g n).
  Proof. intros HU HW. apply local_gens with (g := g); [exact HU|exact HW|]. intros h1 h2 V UU C Vg VU A'. now apply heap_generate_alike. Qed.
End Local.
