(** How generators use random numbers: weighted choice, triggers, and independence of the way
    values are asked for. *)
From Verif Require Import Base BaseFacts Rng RngFacts Utils UtilsFacts Relationship SpecRelationship Frame Gens GensProps
  SpecRandom RandomFacts.
From Coq Require Import Qround Qabs Lqa.
Local Open Scope nat_scope.

Lemma draws_app {A} (f : rng -> A * rng) n m : forall r,
  draws f (n + m) r = let (a, r1) := draws f n r in let (b, r2) := draws f m r1 in (a ++ b, r2).
Proof.
  induction n as [|n IH]; intros r; cbn [draws Nat.add].
  - now destruct (draws f m r).
  - destruct (f r) as [x r1]. rewrite IH. destruct (draws f n r1) as [a r2]. destruct (draws f m r2). reflexivity.
Qed.

Lemma mapr_app_iff {A B} (f : A -> result B) a b l :
  mapr f (a ++ b) = Ok l <-> exists l1 l2, mapr f a = Ok l1 /\ mapr f b = Ok l2 /\ l = l1 ++ l2.
Proof.
  rewrite mapr_ok_Forall2. split.
  - intros H. apply Forall2_app_inv_l in H as (l1 & l2 & H1 & H2 & ->). exists l1, l2. now rewrite !mapr_ok_Forall2.
  - intros (l1 & l2 & H1 & H2 & ->). rewrite mapr_ok_Forall2 in H1, H2. now apply Forall2_app.
Qed.

Lemma mapr_comp_iff {A B C} (k : A -> result B) (f : B -> result C) l l'' :
  mapr (fun x => let! y := k x in f y) l = Ok l'' <-> exists l', mapr k l = Ok l' /\ mapr f l' = Ok l''.
Proof.
  revert l''. induction l as [|x l IH]; intros l''; cbn [mapr].
  - split; [intros [= <-]; exists []; split; reflexivity|]. intros (l' & [= <-] & H). exact H.
  - split.
    + intros H. apply bind_ok in H as (y & Hy & H). apply bind_ok in H as (ys & Hys & [= <-]).
      apply bind_ok in Hy as (z & Hz & Hy). apply IH in Hys as (l' & H1 & H2).
      exists (z :: l'). rewrite Hz. cbn [bind mapr]. rewrite H1, Hy. cbn [bind]. now rewrite H2.
    + intros (l' & H1 & H2). apply bind_ok in H1 as (z & Hz & H1). apply bind_ok in H1 as (zs & Hzs & [= <-]).
      cbn [mapr] in H2. apply bind_ok in H2 as (y & Hy & H2). apply bind_ok in H2 as (ys & Hys & [= <-]).
      rewrite Hz. cbn [bind]. rewrite Hy. cbn [bind]. rewrite (proj2 (IH ys)) by eauto. reflexivity.
Qed.

(** ** One generator *)
Definition leaf (g : gen) : Prop :=
  match g with GConst _ | GNumpy _ _ _ | GPareto _ _ _ _ | GSeq _ _ _ | GOracle _ _ => True | _ => False end.

Lemma choice_split n a b r is r' :
  choice n (a + b) r = Ok (is, r') <->
  exists i1 r1 i2, choice n a r = Ok (i1, r1) /\ choice n b r1 = Ok (i2, r') /\ is = i1 ++ i2.
Proof.
  unfold choice. destruct (n =? 0) eqn:En; cbn [andb].
  - destruct a as [|a]; [|cbn [Nat.add Nat.eqb negb]; split; [discriminate|intros (? & ? & ? & ? & _); discriminate]].
    destruct b as [|b]; cbn [Nat.add Nat.eqb negb draws].
    + split; [intros [= <- <-]; now exists [], r, []|]. intros (? & ? & ? & [= <- <-] & [= <- <-] & ->). reflexivity.
    + split; [discriminate|]. intros (? & ? & ? & _ & ? & _). discriminate.
  - rewrite draws_app. destruct (draws _ a r) as [i1 r1]. destruct (draws _ b r1) as [i2 r2] eqn:E2. split.
    + intros [= <- <-]. exists i1, r1, i2. now rewrite E2.
    + intros (? & ? & ? & [= <- <-] & H & ->). rewrite E2 in H. injection H as <- <-. reflexivity.
Qed.

Lemma choice_p_split n a b p r is r' :
  choice_p n (a + b) p r = Ok (is, r') <->
  exists i1 r1 i2, choice_p n a p r = Ok (i1, r1) /\ choice_p n b p r1 = Ok (i2, r') /\ is = i1 ++ i2.
Proof.
  unfold choice_p.
  assert (F : forall e : exn, Err e = Ok (is, r') <-> False) by (intros e; split; [discriminate|easy]).
  assert (F' : forall {T} e (x : T), @Err T e = Ok x <-> False) by (intros T e x; split; [discriminate|easy]).
  destruct (length p =? n) eqn:El.
  2:{ cbn [negb]. destruct ((n =? 0) && negb (a + b =? 0)); destruct ((n =? 0) && negb (a =? 0));
      (split; [discriminate|intros (? & ? & ? & ? & _); discriminate]). }
  cbn [negb]. destruct (no_nan p) as [qs|]; cbn [bind].
  2:{ destruct ((n =? 0) && negb (a + b =? 0)); destruct ((n =? 0) && negb (a =? 0));
      (split; [discriminate|intros (? & ? & ? & ? & _); discriminate]). }
  destruct (existsb _ qs).
  { destruct ((n =? 0) && negb (a + b =? 0)); destruct ((n =? 0) && negb (a =? 0));
      (split; [discriminate|intros (? & ? & ? & ? & _); discriminate]). }
  destruct (negb (Qeq_bool _ _)).
  { destruct ((n =? 0) && negb (a + b =? 0)); destruct ((n =? 0) && negb (a =? 0));
      (split; [discriminate|intros (? & ? & ? & ? & _); discriminate]). }
  assert (D : Ok (draws (choice_p_one qs) (a + b) r) = Ok (is, r') <->
          exists i1 r1 i2, Ok (draws (choice_p_one qs) a r) = Ok (i1, r1) /\
             Ok (draws (choice_p_one qs) b r1) = Ok (i2, r') /\ is = i1 ++ i2).
  { rewrite draws_app. destruct (draws _ a r) as [i1 r1]. destruct (draws _ b r1) as [i2 r2] eqn:E2. split.
    + intros [= <- <-]. exists i1, r1, i2. now rewrite E2.
    + intros (? & ? & ? & [= <- <-] & H & ->). rewrite E2 in H. injection H as <- <-. reflexivity. }
  destruct (n =? 0) eqn:En; cbn [andb]; [|exact D].
  destruct a as [|a]; [|cbn [Nat.add Nat.eqb negb]; split; [discriminate|intros (? & ? & ? & ? & _); discriminate]].
  destruct b as [|b]; cbn [Nat.add Nat.eqb negb draws] in *; [exact D|].
  split; [discriminate|]. intros (? & ? & ? & _ & ? & _). discriminate.
Qed.

Lemma np_generate_split m n k st vs st' : (0 <= n)%Z -> (0 <= k)%Z ->
  np_generate m (n + k) st = Ok (vs, st') <->
  exists v1 st1 v2, np_generate m n st = Ok (v1, st1) /\ np_generate m k st1 = Ok (v2, st') /\ vs = v1 ++ v2.
Proof.
  intros Hn Hk. unfold np_generate.
  destruct (Z.ltb_spec (n + k) 0) as [|_]; [lia|]. destruct (Z.ltb_spec n 0) as [|_]; [lia|]. destruct (Z.ltb_spec k 0) as [|_]; [lia|].
  rewrite Z2Nat.inj_add by lia. set (a := Z.to_nat n). set (b := Z.to_nat k).
  assert (T : forall (ch : nat -> rng -> result (list nat * rng)) l,
    (forall is r', ch (a + b) st = Ok (is, r') <->
      exists i1 r1 i2, ch a st = Ok (i1, r1) /\ ch b r1 = Ok (i2, r') /\ is = i1 ++ i2) ->
    ((let! (idx, s) := ch (a + b) st in let! vs := take idx l in Ok (vs, s)) = Ok (vs, st') <->
     exists (v1 : list val) st1 v2, (let! (idx, s) := ch a st in let! vs := take idx l in Ok (vs, s)) = Ok (v1, st1) /\
       (let! (idx, s) := ch b st1 in let! vs := take idx l in Ok (vs, s)) = Ok (v2, st') /\ vs = v1 ++ v2)).
  { intros ch l Hch. split.
    - intros H. apply bind_ok in H as ([is s] & H & H'). apply Hch in H as (i1 & r1 & i2 & E1 & E2 & ->).
      apply bind_ok in H' as (ws & H' & [= <- <-]). apply mapr_app_iff in H' as (l1 & l2 & T1 & T2 & ->).
      exists l1, r1, l2. rewrite E1. cbn [bind]. unfold take. rewrite T1. cbn [bind]. split; [reflexivity|].
      rewrite E2. cbn [bind]. rewrite T2. split; reflexivity.
    - intros (v1 & st1 & v2 & H1 & H2 & ->). apply bind_ok in H1 as ([i1 s1] & E1 & H1).
      apply bind_ok in H1 as (w1 & T1 & [= <- <-]). apply bind_ok in H2 as ([i2 s2] & E2 & H2).
      apply bind_ok in H2 as (w2 & T2 & [= <- <-]).
      rewrite (proj2 (Hch (i1 ++ i2) s2)) by eauto 6. cbn [bind].
      assert (T12 : take (i1 ++ i2) l = Ok (w1 ++ w2)) by (apply mapr_app_iff; eauto 6). now rewrite T12. }
  assert (D : forall A (f : rng -> A * rng) (h : A -> val),
    ((let (xs, s) := draws f (a + b) st in Ok (map h xs, s)) = Ok (vs, st') <->
     exists (v1 : list val) st1 v2, (let (xs, s) := draws f a st in Ok (map h xs, s)) = Ok (v1, st1) /\
       (let (xs, s) := draws f b st1 in Ok (map h xs, s)) = Ok (v2, st') /\ vs = v1 ++ v2)).
  { intros A f h. rewrite draws_app. destruct (draws f a st) as [x1 r1]. destruct (draws f b r1) as [x2 r2] eqn:E2. split.
    - intros [= <- <-]. exists (map h x1), r1, (map h x2). rewrite E2. now rewrite map_app.
    - intros (? & ? & ? & [= <- <-] & H' & ->). rewrite E2 in H'. injection H' as <- <-. now rewrite map_app. }
  destruct m as [|l [p|]|f].
  - apply D.
  - apply (T (fun x => choice_p (length l) x p)). intros. apply choice_p_split.
  - apply (T (fun x => choice (length l) x)). intros. apply choice_split.
  - apply D.
Qed.

Lemma leaf_split g n m vs g' : leaf g -> (0 <= n)%Z -> (0 <= m)%Z ->
  gen_step g (n + m) = Ok (vs, g') <->
  exists v1 g1 v2, gen_step g n = Ok (v1, g1) /\ gen_step g1 m = Ok (v2, g') /\ vs = v1 ++ v2.
Proof.
  intros Hl Hn Hm. destruct g as [v|l|mt st b|x fi lo st|c pr w|vals k| | |]; try contradiction; cbn [gen_step].
  - rewrite Z2Nat.inj_add, repeat_app by lia. split.
    + intros [= <- <-]. eexists _, _, _. now repeat split.
    + intros (v1 & g1 & v2 & [= <- <-] & [= <- <-] & ->). reflexivity.
  - destruct b as [b|].
    + split.
      * intros H. apply bind_ok in H as ([l s] & H & [= <- <-]). apply np_generate_split in H as (v1 & s1 & v2 & E1 & E2 & ->); [|lia|lia].
        exists v1, (GNumpy mt st (Some s1)), v2. rewrite E1. cbn [bind gen_step]. rewrite E2. now repeat split.
      * intros (v1 & g1 & v2 & H1 & H2 & ->). apply bind_ok in H1 as ([l1 s1] & H1 & [= <- <-]). cbn [gen_step] in H2.
        apply bind_ok in H2 as ([l2 s2] & H2 & [= <- <-]).
        rewrite (proj2 (np_generate_split mt n m b (l1 ++ l2) s2 Hn Hm)) by eauto 6. reflexivity.
    + split.
      * intros H. apply bind_ok in H as ([l s] & H & [= <- <-]). apply np_generate_split in H as (v1 & s1 & v2 & E1 & E2 & ->); [|lia|lia].
        exists v1, (GNumpy mt s1 None), v2. rewrite E1. cbn [bind gen_step]. rewrite E2. now repeat split.
      * intros (v1 & g1 & v2 & H1 & H2 & ->). apply bind_ok in H1 as ([l1 s1] & H1 & [= <- <-]). cbn [gen_step] in H2.
        apply bind_ok in H2 as ([l2 s2] & H2 & [= <- <-]).
        rewrite (proj2 (np_generate_split mt n m st (l1 ++ l2) s2 Hn Hm)) by eauto 6. reflexivity.
  - destruct (Z.ltb_spec (n + m) 0); [lia|]. destruct (Z.ltb_spec n 0); [lia|].
    rewrite Z2Nat.inj_add, draws_app by lia.
    destruct (draws next_raw (Z.to_nat n) st) as [x1 r1].
    destruct (draws next_raw (Z.to_nat m) r1) as [x2 r2] eqn:E2. split.
    + intros [= <- <-]. eexists _, _, _. split; [reflexivity|]. cbn [gen_step]. destruct (Z.ltb_spec m 0); [lia|].
      rewrite E2. split; [reflexivity|]. now rewrite !map_app.
    + intros (v1 & g1 & v2 & [= <- <-] & H2 & ->). cbn [gen_step] in H2. destruct (Z.ltb_spec m 0); [lia|].
      rewrite E2 in H2. injection H2 as <- <-. now rewrite !map_app.
  - rewrite build_ids_app, map_app by lia. split.
    + intros [= <- <-]. eexists _, _, _. split; [reflexivity|]. cbn [gen_step]. split; [|reflexivity].
      do 3 f_equal. lia.
    + intros (v1 & g1 & v2 & [= <- <-] & [= <- <-] & ->). do 3 f_equal. lia.
  - rewrite Z2Nat.inj_add, seq_app, map_app by lia. split.
    + intros [= <- <-]. eexists _, _, _. split; [reflexivity|]. cbn [gen_step]. split; [|reflexivity].
      do 3 f_equal. lia.
    + intros (v1 & g1 & v2 & [= <- <-] & [= <- <-] & ->). do 3 f_equal. lia.
Qed.

Lemma leaf_step g n vs g' : leaf g -> gen_step g n = Ok (vs, g') -> leaf g'.
Proof.
  destruct g as [v|l|mt st b|x fi lo st|c pr w|vals k| | |]; try contradiction; cbn [gen_step]; intros _ H.
  - now injection H as _ <-.
  - destruct b; apply bind_ok in H as ([? ?] & _ & [= _ <-]); exact I.
  - destruct (n <? 0)%Z; [discriminate|]. destruct (draws _ _ _). injection H as _ <-. exact I.
  - injection H as _ <-. exact I.
  - injection H as _ <-. exact I.
Qed.

Lemma nth_error_set_nth {A} i j (x : A) l :
  nth_error (set_nth i x l) j = if i =? j then (match nth_error l j with Some _ => Some x | None => None end)
                                else nth_error l j.
Proof.
  revert i j. induction l as [|y l IH]; intros [|i] [|j]; cbn; try reflexivity.
  - destruct (i =? j); reflexivity.
  - apply IH.
Qed.

(** ** Derived generators *)
Inductive gpath (h : list gen) : nat -> nat -> (val -> result val) -> Prop :=
| gp_leaf i g : nth_error h i = Some g -> leaf g -> gpath h i i Ok
| gp_map i parent f root k : nth_error h i = Some (GMap parent (MapElem f)) -> parent < i ->
    gpath h parent root k -> gpath h i root (fun v => let! x := k v in f x).

Lemma streaming_gpath h i : streaming h i -> exists root k, gpath h i root k.
Proof.
  induction 1 as [i v H|i m st b H|i x f l st H|i c p w H|i vs k H|i parent f H L _ (root & k & IH)];
    try (eexists _, _; eapply gp_leaf; [exact H|exact I]).
  eexists _, _. eapply gp_map; eauto.
Qed.

Lemma gpath_root h i root k : gpath h i root k -> exists g, nth_error h root = Some g /\ leaf g.
Proof. induction 1; eauto. Qed.

Lemma gpath_set h i root k g : gpath h i root k -> leaf g -> gpath (set_nth root g h) i root k.
Proof.
  intros H Hg. pose proof (gpath_root _ _ _ _ H) as (g0 & H0 & L0).
  assert (G : forall i k, gpath h i root k -> gpath (set_nth root g h) i root k).
  { clear H i k. intros i k H. remember root as r eqn:Er. revert Er.
    induction H as [i g1 Hi Hl|i parent f root' k Hi Hlt Hp IH]; intros ->.
    - eapply gp_leaf; [|exact Hg]. rewrite nth_error_set_nth, Nat.eqb_refl, Hi. reflexivity.
    - eapply gp_map; [|exact Hlt|auto]. rewrite nth_error_set_nth.
      destruct (Nat.eqb_spec root i) as [->|N]; [|exact Hi].
      rewrite Hi in H0. injection H0 as <-. contradiction. }
  auto.
Qed.

Lemma gpath_generate h i root k : gpath h i root k -> forall fuel n vs h', i < fuel ->
  heap_generate fuel h i n = Ok (vs, h') <->
  exists g vs0 g', nth_error h root = Some g /\ gen_step g n = Ok (vs0, g') /\ mapr k vs0 = Ok vs /\
    h' = set_nth root g' h.
Proof.
  assert (mapr_Ok : forall l : list val, mapr Ok l = Ok l).
  { intros l. apply mapr_ok_Forall2. induction l; constructor; auto. }
  induction 1 as [i g Hi Hl|i parent f root k Hi Hlt Hp IH]; intros [|fuel] n vs h' Hf; try lia; cbn [heap_generate]; rewrite Hi.
  - assert (E : (let! (vs, g') := gen_step g n in Ok (vs, set_nth i g' h)) = Ok (vs, h') <->
      exists g0 vs0 g', Some g = Some g0 /\ gen_step g0 n = Ok (vs0, g') /\ mapr Ok vs0 = Ok vs /\ h' = set_nth i g' h).
    { split.
      - intros H. apply bind_ok in H as ([l g'] & H & [= <- <-]). exists g, l, g'. now rewrite mapr_Ok.
      - intros (g0 & vs0 & g' & [= <-] & H & E & ->). rewrite H. cbn [bind]. rewrite mapr_Ok in E. now injection E as ->. }
    destruct g; try contradiction; exact E.
  - destruct (Nat.ltb_spec parent i); [|lia]. split.
    + intros H'. apply bind_ok in H' as ([l h1] & H1 & H'). apply bind_ok in H' as (l' & H2 & [= <- <-]).
      apply IH in H1 as (g & vs0 & g' & E1 & E2 & E3 & ->); [|lia].
      exists g, vs0, g'. split; [exact E1|]. split; [exact E2|]. split; [|reflexivity].
      apply mapr_comp_iff. eauto.
    + intros (g & vs0 & g' & E1 & E2 & E3 & ->). apply mapr_comp_iff in E3 as (l & E3 & E4).
      rewrite (proj2 (IH fuel n l (set_nth root g' h) ltac:(lia))) by eauto 8. cbn [bind]. rewrite E4. reflexivity.
Qed.

Lemma set_nth_twice {A} i (x y : A) l : set_nth i x (set_nth i y l) = set_nth i x l.
Proof. revert i. induction l as [|z l IH]; intros [|i]; cbn; [reflexivity..|]. now rewrite IH. Qed.

Lemma generate_split h i n m vs h' : streaming h i -> (0 <= n)%Z -> (0 <= m)%Z ->
  gen_generate h i (n + m) = Ok (vs, h') <->
  exists v1 h1 v2, gen_generate h i n = Ok (v1, h1) /\ gen_generate h1 i m = Ok (v2, h') /\ vs = v1 ++ v2.
Proof.
  intros Hs Hn Hm. destruct (streaming_gpath _ _ Hs) as (root & k & Hp). unfold gen_generate.
  rewrite (gpath_generate _ _ _ _ Hp) by lia. split.
  - intros (g & vs0 & g' & E1 & E2 & E3 & ->).
    assert (Hl : leaf g) by (destruct (gpath_root _ _ _ _ Hp) as (g0 & E0 & Hl); congruence).
    apply leaf_split in E2 as (v1 & g1 & v2 & E21 & E22 & ->); [|exact Hl|lia|lia].
    apply mapr_app_iff in E3 as (l1 & l2 & E31 & E32 & ->).
    exists l1, (set_nth root g1 h), l2.
    rewrite (gpath_generate _ _ _ _ Hp) by lia. split; [eauto 8|]. split; [|reflexivity].
    assert (Hp1 : gpath (set_nth root g1 h) i root k) by (apply gpath_set; [exact Hp|eapply leaf_step; eauto]).
    rewrite (gpath_generate _ _ _ _ Hp1) by lia. exists g1, v2, g'.
    rewrite nth_error_set_nth, Nat.eqb_refl, E1. split; [reflexivity|]. split; [exact E22|]. split; [exact E32|].
    now rewrite set_nth_twice.
  - intros (v1 & h1 & v2 & H1 & H2 & ->). rewrite (gpath_generate _ _ _ _ Hp) in H1 by lia.
    destruct H1 as (g & w1 & g1 & E1 & E2 & E3 & ->).
    assert (Hl : leaf g) by (destruct (gpath_root _ _ _ _ Hp) as (g0 & E0 & Hl); congruence).
    assert (Hp1 : gpath (set_nth root g1 h) i root k) by (apply gpath_set; [exact Hp|eapply leaf_step; eauto]).
    rewrite (gpath_generate _ _ _ _ Hp1) in H2 by lia. destruct H2 as (g1' & w2 & g2 & F1 & F2 & F3 & ->).
    rewrite nth_error_set_nth, Nat.eqb_refl, E1 in F1. injection F1 as <-.
    exists g, (w1 ++ w2), g2. split; [exact E1|]. split; [apply leaf_split; eauto 6|].
    split; [apply mapr_app_iff; eauto 6|]. now rewrite set_nth_twice.
Qed.

(** ** Dependent generators *)
Lemma heap_calls_app {H} (call : H -> Z -> result (list val * H)) a b : forall h vs h',
  heap_calls call h (a ++ b) = Ok (vs, h') <->
  exists v1 h1 v2, heap_calls call h a = Ok (v1, h1) /\ heap_calls call h1 b = Ok (v2, h') /\ vs = v1 ++ v2.
Proof.
  induction a as [|n a IH]; intros h vs h'; cbn [app heap_calls].
  - split; [intros E; now exists [], h, vs|]. intros (v1 & h1 & v2 & [= <- <-] & E & ->). exact E.
  - split.
    + intros E. apply bind_ok in E as ([v h1] & E1 & E). apply bind_ok in E as ([vs' h2] & E2 & [= <- <-]).
      apply IH in E2 as (v1 & h3 & v2 & E3 & E4 & ->). exists (v :: v1), h3, v2. rewrite E1. cbn [bind].
      rewrite E3. cbn [bind]. now repeat split.
    + intros (v1 & h1 & v2 & E & E4 & ->). apply bind_ok in E as ([v h2] & E1 & E).
      apply bind_ok in E as ([vs' h3] & E2 & [= <- <-]). rewrite E1. cbn [bind].
      rewrite (proj2 (IH h2 (vs' ++ v2) h')) by eauto 6. reflexivity.
Qed.

Lemma dgen_split h d a b vs d' h' :
  dgen_generate h d (a ++ b) = Ok (vs, d', h') <->
  exists v1 d1 h1 v2, dgen_generate h d a = Ok (v1, d1, h1) /\ dgen_generate h1 d1 b = Ok (v2, d', h') /\ vs = v1 ++ v2.
Proof.
  destruct d as [v|proba st|elem]; cbn [dgen_generate].
  - rewrite map_app. split.
    + intros [= <- <- <-]. eexists _, _, _, _. now repeat split.
    + intros (v1 & d1 & h1 & v2 & [= <- <- <-] & [= <- <- <-] & ->). reflexivity.
  - rewrite app_length, draws_app. destruct (draws uniform (length a) st) as [u1 r1] eqn:D1.
    destruct (draws uniform (length b) r1) as [u2 r2] eqn:D2.
    assert (L1 : length u1 = length a) by exact (draws_length _ _ _ _ _ D1).
    assert (C : forall p1 p2 : list Q, length p1 = length a ->
      combine (u1 ++ u2) (p1 ++ p2) = combine u1 p1 ++ combine u2 p2).
    { intros p1 p2 Lp. rewrite <- L1 in Lp. clear -Lp. revert p1 Lp. induction u1 as [|u u1 IH]; intros [|p p1] Lp; try discriminate; [reflexivity|].
      cbn. f_equal. apply IH. now injection Lp. }
    split.
    + intros E. apply bind_ok in E as (ps & E & E'). injection E' as <- <- <-.
      apply mapr_app_iff in E as (p1 & p2 & P1 & P2 & ->). rewrite (C _ _ (mapr_ok_length _ _ _ P1)), map_app.
      eexists _, _, _, _. rewrite P1. cbn [bind]. split; [reflexivity|]. cbn [dgen_generate]. rewrite D2, P2. cbn [bind].
      split; reflexivity.
    + intros (v1 & d1 & h1 & v2 & E1 & E2 & ->). apply bind_ok in E1 as (p1 & P1 & E1). injection E1 as <- <- <-.
      cbn [dgen_generate] in E2. rewrite D2 in E2. apply bind_ok in E2 as (p2 & P2 & E2). injection E2 as <- <- <-.
      assert (P : mapr proba (a ++ b) = Ok (p1 ++ p2)) by (apply mapr_app_iff; eauto 6). rewrite P. cbn [bind].
      now rewrite (C _ _ (mapr_ok_length _ _ _ P1)), map_app.
  - split.
    + intros E. apply bind_ok in E as (ns & N & E). apply bind_ok in E as ([vss h1] & E & E'). injection E' as <- <- <-.
      apply mapr_app_iff in N as (n1 & n2 & N1 & N2 & ->). apply heap_calls_app in E as (v1 & h2 & v2 & E1 & E2 & ->).
      eexists _, _, _, _. rewrite N1. cbn [bind]. rewrite E1. cbn [bind]. split; [reflexivity|]. cbn [dgen_generate].
      rewrite N2. cbn [bind]. rewrite E2. cbn [bind]. split; [reflexivity|]. now rewrite map_app.
    + intros (v1 & d1 & h1 & v2 & E1 & E2 & ->). apply bind_ok in E1 as (n1 & N1 & E1).
      apply bind_ok in E1 as ([vs1 h2] & H1 & E1). injection E1 as <- <- <-. cbn [dgen_generate] in E2.
      apply bind_ok in E2 as (n2 & N2 & E2). apply bind_ok in E2 as ([vs2 h3] & H2 & E2). injection E2 as <- <- <-.
      assert (N : mapr as_int (a ++ b) = Ok (n1 ++ n2)) by (apply mapr_app_iff; eauto 6). rewrite N. cbn [bind].
      rewrite (proj2 (heap_calls_app _ n1 n2 h (vs1 ++ vs2) h3)) by eauto 6. cbn [bind]. now rewrite map_app.
Qed.

(** ** Triggers and weighted choice *)
Lemma nth_error_seq0 n k i : nth_error (seq 0 n) k = Some i -> i = k.
Proof.
  intros E. assert (L : k < length (seq 0 n)) by (apply nth_error_Some; congruence). rewrite seq_length in L.
  rewrite (nth_error_nth' _ 0) in E by now rewrite seq_length. rewrite seq_nth in E by exact L. now injection E.
Qed.

Lemma trigger_exact h proba st obs vs d' h' :
  dgen_generate h (DTrigger proba st) obs = Ok (vs, d', h') ->
  h' = h /\ length vs = length obs /\ (exists st', d' = DTrigger proba st' /\ drawn (length obs) st st') /\
  forall j o, nth_error obs j = Some o ->
    exists p b, proba o = Ok p /\ nth_error vs j = Some (VBool b) /\ (b = true <-> (coming st j < p)%Q).
Proof.
  cbn [dgen_generate]. rewrite draws_uniform. intros H. apply bind_ok in H as (ps & Hp & [= <- <- <-]).
  pose proof (mapr_ok_length _ _ _ Hp) as Lp.
  assert (Lc : length (combine (map (coming st) (seq 0 (length obs))) ps) = length obs)
    by (rewrite combine_length, map_length, seq_length; lia).
  split; [reflexivity|]. split; [now rewrite map_length|]. split; [eexists; split; reflexivity|].
  intros j o Hj. assert (Hl : j < length obs) by (apply nth_error_Some; congruence).
  destruct (nth_error ps j) as [p|] eqn:Ep; [|apply nth_error_None in Ep; lia].
  exists p, (Qltb (coming st j) p). apply mapr_ok_Forall2 in Hp.
  split.
  { revert j Hj Ep Hl. clear -Hp. induction Hp as [|x y l l' E _ IH]; intros [|j]; cbn; try discriminate;
      [intros [= ->] [= ->] _; exact E|]. intros A B C. apply (IH j); [exact A|exact B|lia]. }
  split; [|apply Qltb_lt].
  rewrite nth_error_map.
  assert (Ec : nth_error (combine (map (coming st) (seq 0 (length obs))) ps) j = Some (coming st j, p)).
  { assert (Eu : nth_error (map (coming st) (seq 0 (length obs))) j = Some (coming st j)).
    { rewrite nth_error_map. destruct (nth_error (seq 0 (length obs)) j) as [i|] eqn:E.
      - apply nth_error_seq0 in E. now subst.
      - apply nth_error_None in E. rewrite seq_length in E. lia. }
    revert Eu Ep. generalize (map (coming st) (seq 0 (length obs))) as us, (coming st j) as c. clear. intros us c. revert ps j.
    induction us as [|u us IH]; intros [|q ps] [|j]; cbn; try discriminate; [congruence|apply IH]. }
  rewrite Ec. reflexivity.
Qed.

Lemma choice_exact a ps size st vs st' :
  np_generate (NpChoice a (Some (map Some ps))) size st = Ok (vs, st') ->
  proper_weights ps /\ length ps = length a /\ (Z.of_nat (length vs) = size)%Z /\ drawn (length vs) st st' /\
  forall j v, nth_error vs j = Some v -> selects (combine a ps) (coming st j) v.
Proof.
  unfold np_generate. destruct (Z.ltb_spec size 0) as [|Hs]; [discriminate|]. intros H.
  apply bind_ok in H as ([idx s] & H & H'). apply bind_ok in H' as (ws & T & [= <- <-]).
  apply choice_p_designates in H as (Hp & Hl & Hd & Hn & Hi). apply take_nth in T.
  assert (L : length idx = length ws) by (clear -T; induction T; cbn; congruence).
  split; [exact Hp|]. split; [exact Hl|]. split; [lia|]. split; [now rewrite <- L, Hn|].
  intros j v Hj. destruct (nth_error idx j) as [i|] eqn:Ei.
  2:{ apply nth_error_None in Ei. assert (j < length ws) by (apply nth_error_Some; congruence). lia. }
  exists i. rewrite map_snd_combine, map_fst_combine by lia. split; [now apply Hi|].
  clear -T Hj Ei. revert j Hj Ei. induction T as [|x y l l' E _ IH]; intros [|j]; cbn; try discriminate; [congruence|apply IH].
Qed.

Lemma uniform_exact size st vs st' :
  np_generate NpUniform size st = Ok (vs, st') ->
  (Z.of_nat (length vs) = size)%Z /\ drawn (length vs) st st' /\
  forall j v, nth_error vs j = Some v -> v = vq (coming st j).
Proof.
  unfold np_generate. destruct (Z.ltb_spec size 0) as [|Hs]; [discriminate|]. rewrite draws_uniform. intros [= <- <-].
  rewrite !map_length, seq_length. split; [lia|]. split; [reflexivity|].
  intros j v Hj. rewrite !nth_error_map in Hj. destruct (nth_error (seq 0 _) j) as [i|] eqn:E; [|discriminate].
  apply nth_error_seq0 in E. subst. now injection Hj.
Qed.
