(** Generators that never refuse to generate. *)
From Verif Require Import Base BaseFacts Rng RngFacts Utils UtilsFacts Relationship Frame Gens GensProps Clock Attribute World OpsFacts Story Ops SpecPopulation GensKept
  SpecRecords RecordsGens RelationshipFacts RelationshipSelect SpecSafe.

Lemma mapr_total {A B} (f : A -> result B) l : (forall x, In x l -> exists y, f x = Ok y) -> exists ys, mapr f l = Ok ys /\ length ys = length l.
Proof.
  induction l as [|x l IH]; intros H; cbn [mapr]; [exists []; split; reflexivity|].
  destruct (H x (or_introl eq_refl)) as [y E]. destruct IH as (ys & Es & L); [intros z Hz; apply H; now right|].
  rewrite E, Es. cbn. exists (y :: ys). split; [reflexivity|cbn; lia].
Qed.
Lemma take_total {A} idx (l : list A) : Forall (fun i => i < length l) idx -> exists vs, take idx l = Ok vs /\ length vs = length idx.
Proof.
  intros F. apply mapr_total. intros i Hi. rewrite Forall_forall in F. specialize (F i Hi). destruct (nth_error l i) eqn:E; [eauto|].
  apply nth_error_None in E. lia.
Qed.

Definition sure_method (m : np_method) : Prop :=
  match m with
  | NpChoice a None => a <> []
  | NpChoice a (Some ps) => exists qs, ps = map Some qs /\ length qs = length a /\ (forall p, In p qs -> (0 <= p)%Q) /\ (qsum qs == 1)%Q
  | _ => True
  end.
Lemma method_runs m st n : sure_method m -> (0 <= n)%Z -> exists vs st', np_generate m n st = Ok (vs, st') /\ length vs = Z.to_nat n.
Proof.
  intros S Hn. unfold np_generate. rewrite (proj2 (Z.ltb_ge n 0) Hn). destruct m as [|a [ps|]|f].
  - destruct (draws uniform _ st) as [us st'] eqn:E. apply draws_length in E. eexists _, _. split; [reflexivity|now rewrite map_length].
  - destruct S as (qs & -> & Lq & Pos & Sum).
    assert (E : choice_p (length a) (Z.to_nat n) (map Some qs) st = Ok (draws (choice_p_one qs) (Z.to_nat n) st)).
    { unfold choice_p. assert (L0 : length a <> 0). { rewrite <- Lq. destruct qs as [|q qs']; [exfalso; cbn in Sum; discriminate|discriminate]. }
      rewrite (proj2 (Nat.eqb_neq _ _) L0). cbn [andb]. rewrite map_length, Lq, Nat.eqb_refl. cbn [negb].
      rewrite (proj2 (no_nan_Some (map Some qs) qs) eq_refl). cbn.
      assert (X : existsb (fun q => Qltb q 0) qs = false).
      { apply not_true_is_false. intros X. apply existsb_exists in X as (q & Hq & X). apply Qltb_lt in X. specialize (Pos q Hq). exact (Qlt_not_le _ _ X Pos). }
      rewrite X. rewrite (proj2 (Qeq_bool_iff _ _) Sum). reflexivity. }
    destruct (draws (choice_p_one qs) (Z.to_nat n) st) as [idx st'] eqn:Ed. rewrite E. cbn [bind].
    pose proof (choice_p_index_lt _ _ _ _ _ _ E) as Lt. apply draws_length in Ed. destruct (take_total idx a Lt) as (vs & Et & Lv).
    cbn. rewrite Et. cbn. exists vs, st'. split; [reflexivity|congruence].
  - assert (E : choice (length a) (Z.to_nat n) st = Ok (draws (randint (length a)) (Z.to_nat n) st)).
    { unfold choice. assert (L0 : length a <> 0) by (destruct a; [now destruct S|discriminate]). now rewrite (proj2 (Nat.eqb_neq _ _) L0). }
    destruct (draws (randint (length a)) (Z.to_nat n) st) as [idx st'] eqn:Ed. rewrite E. cbn.
    apply choice_spec in E as [_ Lt]. apply draws_length in Ed. destruct (take_total idx a Lt) as (vs & Et & Lv). rewrite Et. cbn. exists vs, st'. split; [reflexivity|congruence].
  - destruct (draws next_raw _ st) as [us st'] eqn:E. apply draws_length in E. eexists _, _. split; [reflexivity|now rewrite map_length].
Qed.

Definition gives (h0 : list gen) (i : nat) : Prop := forall fuel h n, i < fuel -> gens_kept h0 h -> (0 <= n)%Z ->
  exists vs h', heap_generate fuel h i n = Ok (vs, h') /\ length vs = Z.to_nat n.

Lemma base_gives h0 i g0 : nth_error h0 i = Some g0 -> (forall p f, g0 <> GMap p f) -> (forall p e, g0 <> GBulk p e) ->
  (forall g n, same_gen g0 g -> (0 <= n)%Z -> exists vs g', gen_step g n = Ok (vs, g') /\ length vs = Z.to_nat n) -> gives h0 i.
Proof.
  intros Hi N1 N2 St [|fuel] h n Hf K Hn; [lia|]. destruct (K _ _ Hi) as (g & Hg & S). destruct (St g n S Hn) as (vs & g' & E & L).
  cbn [heap_generate]. rewrite Hg. exists vs, (set_nth i g' h). split; [|exact L].
  destruct g; first [now rewrite E|exfalso; destruct g0; cbn in S; try easy; first [eapply N1; reflexivity|eapply N2; reflexivity]].
Qed.
Lemma numpy_step m g0 g n st b : sure_method m -> g0 = GNumpy m st b -> same_gen g0 g -> (0 <= n)%Z ->
  exists vs g', gen_step g n = Ok (vs, g') /\ length vs = Z.to_nat n.
Proof.
  intros Sm -> S Hn. destruct g; cbn in S; try easy. destruct S as [<- _]. cbn [gen_step]. destruct bound as [b'|].
  - destruct (method_runs m b' n Sm Hn) as (vs & st' & E & L). rewrite E. cbn. eauto.
  - destruct (method_runs m state n Sm Hn) as (vs & st' & E & L). rewrite E. cbn. eauto.
Qed.
Lemma heap_kept_after fuel h0 h i n vs h' : gens_kept h0 h -> heap_generate fuel h i n = Ok (vs, h') -> gens_kept h0 h'.
Proof. intros K E. eapply gens_kept_trans; [exact K|eapply heap_generate_kept; exact E]. Qed.

Lemma calls_total h0 (call : list gen -> Z -> result (list val * list gen)) ns :
  (forall h n, gens_kept h0 h -> (0 <= n)%Z -> exists vs h', call h n = Ok (vs, h') /\ length vs = Z.to_nat n /\ gens_kept h0 h') ->
  Forall (fun n => 0 <= n)%Z ns -> forall h, gens_kept h0 h -> exists vss h', heap_calls call h ns = Ok (vss, h') /\ length vss = length ns /\ gens_kept h0 h'.
Proof.
  intros Hc. induction 1 as [|n ns Hn _ IH]; intros h K; cbn [heap_calls]; [exists [], h; auto|].
  destruct (Hc h n K Hn) as (vs & h1 & -> & _ & K1). cbn. destruct (IH h1 K1) as (vss & h2 & -> & L & K2). cbn. exists (vs :: vss), h2. cbn. auto.
Qed.

Lemma as_int_vz z : as_int (vz z) = Ok z.
Proof.
  unfold vz, as_int, vq. assert (E : Qred (inject_Z z) = inject_Z z). { unfold inject_Z, Qred. cbn. destruct (Z.ggcd z 1) as [g [a b]] eqn:G.
    pose proof (Z.ggcd_gcd z 1) as G1. pose proof (Z.ggcd_correct_divisors z 1) as G2. rewrite G in G1, G2. cbn in G1. rewrite Z.gcd_1_r in G1. subst g. destruct G2 as [G2 G3].
    rewrite Z.mul_1_l in *. subst a b. reflexivity. }
  cbn [this Q2Qc]. rewrite E. reflexivity.
Qed.
Lemma as_int_vnat n : as_int (vnat n) = Ok (Z.of_nat n).
Proof. apply as_int_vz. Qed.

Lemma counts_total l : (forall v, In v l -> exists n, v = vnat n) -> exists ns, mapr as_int l = Ok ns /\ length ns = length l /\ Forall (fun n => 0 <= n)%Z ns.
Proof.
  induction l as [|v l IH]; intros H; cbn [mapr]; [exists []; repeat split; constructor|].
  destruct (H v (or_introl eq_refl)) as [n ->]. destruct IH as (ns & E & L & F); [intros u Hu; apply H; now right|].
  assert (En : as_int (vnat n) = Ok (Z.of_nat n)) by apply as_int_vnat.
  rewrite En, E. cbn. exists (Z.of_nat n :: ns). repeat split; [cbn; lia|constructor; [lia|exact F]].
Qed.

Lemma never_refuses_gives h0 i : never_refuses h0 i -> gives h0 i.
Proof.
  induction 1 as [i v Hi|i s b Hi|i a s b Hi Ha|i a ps s b Hi L Pos Sum|i f s b Hi|i xmin fi lomax s Hi|i k prefix width Hi|i values k Hi
                 |i p f Hi Hp _ IH Ht|i p f Hi Hp _ IH Ht|i p e Hi Hp He _ IHp _ IHe Ht].
  - apply (base_gives _ _ _ Hi); try discriminate. intros g n S Hn. destruct g; cbn in S; try easy. cbn. eexists _, _. split; [reflexivity|apply repeat_length].
  - apply (base_gives _ _ _ Hi); try discriminate. intros g n. now apply (numpy_step NpUniform _ g n s b).
  - apply (base_gives _ _ _ Hi); try discriminate. intros g n. now apply (numpy_step (NpChoice a None) _ g n s b).
  - apply (base_gives _ _ _ Hi); try discriminate. intros g n. apply (numpy_step (NpChoice a (Some (map Some ps))) _ g n s b); [exists ps; auto|reflexivity].
  - apply (base_gives _ _ _ Hi); try discriminate. intros g n. now apply (numpy_step (NpOther f) _ g n s b).
  - apply (base_gives _ _ _ Hi); try discriminate. intros g n S Hn. destruct g; cbn in S; try easy. cbn [gen_step]. rewrite (proj2 (Z.ltb_ge n 0) Hn).
    destruct (draws next_raw _ state) as [xs st'] eqn:E. apply draws_length in E. eexists _, _. split; [reflexivity|now rewrite !map_length].
  - apply (base_gives _ _ _ Hi); try discriminate. intros g n S Hn. destruct g; cbn in S; try easy. cbn [gen_step]. eexists _, _. split; [reflexivity|].
    rewrite map_length. unfold build_ids. now rewrite map_length, seq_length || (rewrite map_length; unfold zrange; now rewrite map_length, seq_length).
  - apply (base_gives _ _ _ Hi); try discriminate. intros g n S Hn. destruct g; cbn in S; try easy. cbn [gen_step]. eexists _, _. split; [reflexivity|now rewrite map_length, seq_length].
  - intros [|fuel] h n Hf K Hn; [lia|]. destruct (K _ _ Hi) as (g & Hg & S). destruct g; cbn in S; try easy. destruct S as [<- <-].
    destruct (IH fuel h n ltac:(lia) K Hn) as (us & h1 & E & L). cbn [heap_generate]. rewrite Hg, (proj2 (Nat.ltb_lt _ _) Hp), E. cbn.
    assert (Hl : i < length h0) by (apply nth_error_Some; congruence).
    pose proof (heap_can h0 fuel h p n us h1 K ltac:(lia) E) as F. rewrite Forall_forall in F.
    destruct (mapr_total f us) as (vs & Ev & Lv); [intros u Hu; apply Ht, F, Hu|]. rewrite Ev. cbn. eexists _, _. split; [reflexivity|congruence].
  - intros [|fuel] h n Hf K Hn; [lia|]. destruct (K _ _ Hi) as (g & Hg & S). destruct g; cbn in S; try easy. destruct S as [<- <-].
    destruct (IH fuel h n ltac:(lia) K Hn) as (us & h1 & E & L). cbn [heap_generate]. rewrite Hg, (proj2 (Nat.ltb_lt _ _) Hp), E. cbn.
    assert (Hl : i < length h0) by (apply nth_error_Some; congruence).
    pose proof (heap_can h0 fuel h p n us h1 K ltac:(lia) E) as F. destruct (Ht us F) as (vs & Ev & Lv). rewrite Ev. cbn. eexists _, _. split; [reflexivity|congruence].
  - intros [|fuel] h n Hf K Hn; [lia|]. destruct (K _ _ Hi) as (g & Hg & S). destruct g; cbn in S; try easy. destruct S as [<- <-].
    destruct (IHp fuel h n ltac:(lia) K Hn) as (us & h1 & E & L). cbn [heap_generate].
    rewrite Hg, (proj2 (Nat.ltb_lt _ _) Hp), (proj2 (Nat.ltb_lt _ _) He), E. cbn.
    assert (Hl : i < length h0) by (apply nth_error_Some; congruence).
    pose proof (heap_can h0 fuel h p n us h1 K ltac:(lia) E) as F. rewrite Forall_forall in F.
    destruct (counts_total us) as (ns & En & Ln & Fn); [intros v Hv; apply Ht, F, Hv|]. rewrite En. cbn.
    destruct (calls_total h0 (fun h n => heap_generate fuel h e n) ns) with (h := h1) as (vss & h2 & Ec & Lc & _).
    + intros h' m K' Hm. destruct (IHe fuel h' m ltac:(lia) K' Hm) as (vs & h'' & E' & L'). exists vs, h''. split; [exact E'|]. split; [exact L'|].
      eapply heap_kept_after; eauto.
    + exact Fn.
    + eapply heap_kept_after; eauto.
    + rewrite Ec. cbn. eexists _, _. split; [reflexivity|]. rewrite map_length. congruence.
Qed.

Lemma gen_gives h0 h i n : never_refuses h0 i -> gens_kept h0 h -> (0 <= n)%Z ->
  exists vs h', gen_generate h i n = Ok (vs, h') /\ length vs = Z.to_nat n /\ gens_kept h0 h' /\ Forall (can_give h0 i) vs.
Proof.
  intros H K Hn. destruct (never_refuses_gives _ _ H (Datatypes.S i) h n ltac:(lia) K Hn) as (vs & h' & E & L). exists vs, h'. split; [exact E|]. split; [exact L|].
  split; [eapply heap_kept_after; eauto|]. eapply gen_can; [exact K| |exact E].
  assert (exists g, nth_error h0 i = Some g) as [g Hg] by (destruct H; eauto). apply nth_error_Some. congruence.
Qed.

Lemma values_give h0 h i n q : never_refuses h0 i -> gens_kept h0 h -> (forall qs v, q = Some qs -> In v qs -> exists k, v = vnat k) ->
  (forall qs, q = Some qs -> length qs = n) ->
  exists vs h', random_values h i n q = Ok (vs, h') /\ length vs = n.
Proof.
  intros H K Hq Hl. unfold random_values. destruct q as [qs|].
  - destruct (counts_total qs) as (ns & En & Ln & Fn); [intros v; now apply Hq|]. rewrite En. cbn [bind].
    assert (Hz : (0 <= zsum ns)%Z). { clear - Fn. unfold zsum. induction Fn; cbn; lia. }
    destruct (gen_gives h0 h i (zsum ns) H K Hz) as (vs & h' & E & L & _). rewrite E. cbn [bind].
    assert (X : existsb (fun n => (n <? 0)%Z) ns = false).
    { apply not_true_is_false. intros X. apply existsb_exists in X as (z & Hz' & X). rewrite Forall_forall in Fn. specialize (Fn z Hz'). lia. }
    rewrite X. eexists _, _. split; [reflexivity|]. rewrite map_length.
    assert (Lsl : forall ms (l : list val), length (slices ms l) = length ms) by (induction ms; intros; cbn; auto). rewrite Lsl, map_length, Ln. now apply Hl.
  - destruct (gen_gives h0 h i (Z.of_nat n) H K ltac:(lia)) as (vs & h' & E & L & _). exists vs, h'. split; [exact E|]. now rewrite L, Nat2Z.id.
Qed.
