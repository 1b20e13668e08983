From Coq Require Import DecimalString DecimalZ DecimalN DecimalFacts.
From Verif Require Import Base BaseFacts Rng RngFacts Utils.

(** ** merge_2_dicts *)
Section Merge.
  Context {K V : Type} `{EqK K}.
  Implicit Types (d : dict K V) (f : option (V -> V -> V)).

  Lemma merge_ord_keys keys f d1 d2 d :
    merge_2_dicts_ord keys f d1 d2 = Ok d -> dkeys d = keys.
  Proof.
    unfold merge_2_dicts_ord. intros Hm. apply mapr_ok_Forall2 in Hm. unfold dkeys.
    induction Hm as [|k kv keys d Hk _ IH]; cbn; [easy|].
    apply bind_ok in Hk as (v & _ & [= <-]). cbn. now f_equal.
  Qed.

  Lemma merge_ord_get keys f d1 d2 d k :
    merge_2_dicts_ord keys f d1 d2 = Ok d -> In k keys ->
    exists v, merged_value f d1 d2 k = Ok v /\ dget k d = Some v.
  Proof.
    unfold merge_2_dicts_ord. intros Hm. apply mapr_ok_Forall2 in Hm.
    induction Hm as [|k0 kv keys d Hk _ IH]; cbn; [easy|].
    apply bind_ok in Hk as (v & Hv & [= <-]).
    destruct (keqb_spec k k0) as [->|Hn]; [eauto|].
    intros [E|Hi]; [congruence|]. auto.
  Qed.

  Lemma union_keys_In d1 d2 k : In k (union_keys d1 d2) <-> In k (dkeys d1) \/ In k (dkeys d2).
  Proof.
    unfold union_keys. rewrite in_app_iff, filter_In, negb_true_iff.
    destruct (dmem k d1) eqn:E.
    - apply dmem_In in E. intuition congruence.
    - assert (~ In k (dkeys d1)) by (rewrite <- dmem_In; congruence). intuition.
  Qed.

  Lemma NoDup_app_intro {A} (l1 l2 : list A) :
    NoDup l1 -> NoDup l2 -> (forall x, In x l1 -> ~ In x l2) -> NoDup (l1 ++ l2).
  Proof.
    induction 1 as [|x l1 Hx _ IH]; cbn; [easy|]. intros H2 Hd. constructor.
    - rewrite in_app_iff. intros [Hi|Hi]; [auto|]. eapply Hd; eauto.
    - apply IH; auto.
  Qed.

  Lemma union_keys_NoDup d1 d2 : NoDup (dkeys d1) -> NoDup (dkeys d2) -> NoDup (union_keys d1 d2).
  Proof.
    intros H1 H2. apply NoDup_app_intro; [easy|now apply NoDup_filter|].
    intros k Hk. rewrite filter_In, negb_true_iff. intros [_ Hc].
    apply dmem_In in Hk. congruence.
  Qed.

  Lemma merged_value_total g d1 d2 k :
    In k (dkeys d1) \/ In k (dkeys d2) -> exists v, merged_value (Some g) d1 d2 k = Ok v.
  Proof.
    intros Hk. unfold merged_value.
    destruct (dget k d1) eqn:E1; destruct (dget k d2) eqn:E2; eauto.
    apply dget_None in E1; apply dget_None in E2. tauto.
  Qed.

  Lemma merge_ord_total g keys d1 d2 :
    (forall k, In k keys -> In k (dkeys d1) \/ In k (dkeys d2)) ->
    exists d, merge_2_dicts_ord keys (Some g) d1 d2 = Ok d.
  Proof.
    unfold merge_2_dicts_ord. induction keys as [|k keys IH]; cbn; intros Hk; [eauto|].
    destruct (merged_value_total g d1 d2 k) as [v Hv]; [auto|]. rewrite Hv. cbn.
    destruct IH as [d Hd]; [auto|]. rewrite Hd. cbn. eauto.
  Qed.

  Lemma merge_total g d1 d2 : exists d, merge_2_dicts (Some d1) (Some d2) (Some g) = Ok d.
  Proof. apply merge_ord_total. intros k. apply union_keys_In. Qed.

  (** Pointwise meaning of a merge, independent of the iteration order. *)
  Definition merged_at (g : V -> V -> V) (o1 o2 : option V) : option V :=
    match o1, o2 with
    | Some a, Some b => Some (g a b)
    | Some a, None => Some a
    | None, o => o
    end.

  Lemma merge_ord_dget g keys d1 d2 d :
    merge_2_dicts_ord keys (Some g) d1 d2 = Ok d ->
    (forall k, In k keys <-> In k (dkeys d1) \/ In k (dkeys d2)) ->
    forall k, dget k d = merged_at g (dget k d1) (dget k d2).
  Proof.
    intros Hm Hk k. destruct (in_dec key_dec k keys) as [Hi|Hi].
    - destruct (merge_ord_get _ _ _ _ _ _ Hm Hi) as (v & Hv & ->).
      unfold merged_value in Hv. unfold merged_at.
      destruct (dget k d1), (dget k d2); congruence.
    - assert (E : dget k d = None).
      { apply dget_None. now rewrite (merge_ord_keys _ _ _ _ _ Hm). }
      rewrite E. assert (Hn := Hi). rewrite Hk in Hn.
      assert (E1 : dget k d1 = None) by (apply dget_None; tauto).
      assert (E2 : dget k d2 = None) by (apply dget_None; tauto).
      now rewrite E1, E2.
  Qed.

  Lemma merge_dget g d1 d2 d :
    merge_2_dicts (Some d1) (Some d2) (Some g) = Ok d ->
    forall k, dget k d = merged_at g (dget k d1) (dget k d2).
  Proof. intros Hm. apply (merge_ord_dget _ _ _ _ _ Hm). intros k. apply union_keys_In. Qed.

  Lemma merge_conflict_raises d1 d2 k :
    In k (dkeys d1) -> In k (dkeys d2) ->
    merge_2_dicts (Some d1) (Some d2) None = Err ValueError.
  Proof.
    intros H1 H2. cbn. unfold merge_2_dicts_ord.
    assert (Hk : In k (union_keys d1 d2)) by (apply union_keys_In; auto).
    assert (Hall : forall k', In k' (union_keys d1 d2) -> In k' (dkeys d1) \/ In k' (dkeys d2))
      by (intros; now apply union_keys_In).
    induction (union_keys d1 d2) as [|k0 l IH]; [easy|]. cbn.
    destruct (merged_value None d1 d2 k0) as [v|e] eqn:E.
    - cbn. destruct Hk as [->|Hk].
      + exfalso. unfold merged_value in E.
        destruct (dget k d1) eqn:E1; [|now apply dget_None in E1].
        destruct (dget k d2) eqn:E2; [easy|now apply dget_None in E2].
      + rewrite IH; [easy|auto|]. intros; apply Hall; cbn; auto.
    - unfold merged_value in E.
      destruct (dget k0 d1) eqn:E1; destruct (dget k0 d2) eqn:E2; try discriminate E;
        injection E as <-; [reflexivity|].
      apply dget_None in E1; apply dget_None in E2. destruct (Hall k0); cbn; tauto.
  Qed.

  Lemma merge_disjoint_ok d1 d2 :
    (forall k, In k (dkeys d1) -> ~ In k (dkeys d2)) ->
    exists d, merge_2_dicts (Some d1) (Some d2) None = Ok d /\
              forall k, dget k d = match dget k d1 with Some v => Some v | None => dget k d2 end.
  Proof.
    intros Hd.
    assert (Hmv : forall g k, In k (union_keys d1 d2) ->
                   merged_value None d1 d2 k = merged_value (Some g) d1 d2 k).
    { intros g k _. unfold merged_value.
      destruct (dget k d1) eqn:E1; [|easy]. destruct (dget k d2) eqn:E2; [|easy].
      apply dget_Some_key in E1; apply dget_Some_key in E2. exfalso. eapply Hd; eauto. }
    set (g := fun a b : V => a).
    assert (E : merge_2_dicts (Some d1) (Some d2) None = merge_2_dicts (Some d1) (Some d2) (Some g)).
    { cbn. unfold merge_2_dicts_ord. specialize (Hmv g). revert Hmv.
      generalize (union_keys d1 d2) as l. induction l as [|k l IH]; cbn; intros Hl; [easy|].
      rewrite (Hl k) by auto. rewrite IH by auto. easy. }
    destruct (merge_total g d1 d2) as [d Hm]. exists d. split; [now rewrite E|].
    intros k. rewrite (merge_dget _ _ _ _ Hm). unfold merged_at, g.
    destruct (dget k d1), (dget k d2); easy.
  Qed.
End Merge.

(** ** Sequential ids *)
Lemma zeros_length n s : String.length (zeros n s) = n + String.length s.
Proof. induction n; cbn; auto. Qed.

Fixpoint dzeros (n : nat) (d : Decimal.uint) : Decimal.uint :=
  match n with 0 => d | S n' => Decimal.D0 (dzeros n' d) end.

Lemma zeros_string n d :
  zeros n (NilEmpty.string_of_uint d) = NilEmpty.string_of_uint (dzeros n d).
Proof. induction n; cbn; congruence. Qed.

Lemma of_uint_dzeros n d : Pos.of_uint (dzeros n d) = Pos.of_uint d.
Proof. induction n; cbn; auto. Qed.

Lemma string_of_uint_inj d1 d2 :
  NilEmpty.string_of_uint d1 = NilEmpty.string_of_uint d2 -> d1 = d2.
Proof.
  intros E. assert (H : Some d1 = Some d2) by (rewrite <- !NilEmpty.usu; now rewrite E).
  congruence.
Qed.

Lemma nil_zero_string d : exists d',
  NilZero.string_of_uint d = NilEmpty.string_of_uint d' /\ Pos.of_uint d' = Pos.of_uint d
  /\ d' <> Decimal.Nil.
Proof.
  destruct d eqn:E;
    [exists (Decimal.D0 Decimal.Nil); easy|..];
    (rewrite <- E; exists d; rewrite E; easy).
Qed.

Lemma uint_string_not_minus d s : NilEmpty.string_of_uint d <> String "-"%char s.
Proof. destruct d; cbn; easy. Qed.

Lemma zeros_not_minus n d s : zeros n (NilEmpty.string_of_uint d) <> String "-"%char s.
Proof. rewrite zeros_string. apply uint_string_not_minus. Qed.

Lemma zfill_uint w d :
  zfill w (NilEmpty.string_of_uint d) =
  zeros (w - String.length (NilEmpty.string_of_uint d)) (NilEmpty.string_of_uint d).
Proof. unfold zfill. destruct d; reflexivity. Qed.

Lemma Z_of_int_value z :
  z = match Z.to_int z with
      | Decimal.Pos d => Z.of_N (Pos.of_uint d)
      | Decimal.Neg d => (- Z.of_N (Pos.of_uint d))%Z
      end.
Proof.
  pose proof (DecimalZ.of_to z) as E. rewrite <- E at 1.
  destruct (Z.to_int z); cbn; unfold Z.of_uint; reflexivity.
Qed.

Lemma to_int_neg_nonzero z d : Z.to_int z = Decimal.Neg d -> Pos.of_uint d <> 0%N.
Proof.
  intros E H0. pose proof (Z_of_int_value z) as Hz. rewrite E, H0 in Hz. cbn in Hz.
  subst z. cbn in E. discriminate.
Qed.

(** Two different integers never get the same zero-filled rendering, for any width. *)
Lemma zfill_str_inj w x y : zfill w (str_of_Z x) = zfill w (str_of_Z y) -> x = y.
Proof.
  unfold str_of_Z. intros E.
  pose proof (Z_of_int_value x) as Hx. pose proof (Z_of_int_value y) as Hy.
  destruct (Z.to_int x) as [dx|dx] eqn:Ex; destruct (Z.to_int y) as [dy|dy] eqn:Ey;
    cbn [NilZero.string_of_int] in E;
    destruct (nil_zero_string dx) as (dx' & Hdx & Hvx & _);
    destruct (nil_zero_string dy) as (dy' & Hdy & Hvy & _);
    rewrite Hdx, Hdy in E.
  - rewrite !zfill_uint, !zeros_string in E. apply string_of_uint_inj in E.
    apply (f_equal Pos.of_uint) in E. rewrite !of_uint_dzeros, Hvx, Hvy in E. congruence.
  - exfalso. rewrite zfill_uint in E. eapply zeros_not_minus. exact E.
  - exfalso. rewrite (zfill_uint w dy') in E. symmetry in E. eapply zeros_not_minus. exact E.
  - cbn in E. injection E as E. rewrite !zeros_string in E. apply string_of_uint_inj in E.
    apply (f_equal Pos.of_uint) in E. rewrite !of_uint_dzeros, Hvx, Hvy in E. congruence.
Qed.

Lemma string_app_inj_l p a b : (p ++ a = p ++ b)%string -> a = b.
Proof. induction p; cbn; intros E; [easy|]. injection E as E. auto. Qed.

Lemma build_ids_length size start prefix w : length (build_ids size start prefix w) = Z.to_nat size.
Proof. unfold build_ids. now rewrite map_length, seq_length. Qed.

Lemma NoDup_map_inj {A B} (f : A -> B) l :
  (forall x y, In x l -> In y l -> f x = f y -> x = y) -> NoDup l -> NoDup (map f l).
Proof.
  intros Hf Hl. induction Hl as [|x l Hx Hl IH]; cbn; constructor.
  - intros Hi. apply in_map_iff in Hi as (y & E & Hy). apply Hf in E; cbn; auto. now subst.
  - apply IH. intros; apply Hf; cbn; auto.
Qed.

Lemma build_ids_NoDup size start prefix w : NoDup (build_ids size start prefix w).
Proof.
  apply NoDup_map_inj; [|apply seq_NoDup].
  intros x y _ _ E. apply string_app_inj_l, zfill_str_inj in E. lia.
Qed.

(** ** cap_to_total *)
(** Greedy service in request order: the small specification. *)
Fixpoint greedy (total : Z) (l : list Z) : list Z :=
  match l with
  | [] => []
  | x :: l' => Z.min x total :: greedy (total - Z.min x total) l'
  end.

Lemma zsum_app l1 l2 : zsum (l1 ++ l2) = (zsum l1 + zsum l2)%Z.
Proof. induction l1; cbn; lia. Qed.

Lemma zsum_rev l : zsum (rev l) = zsum l.
Proof. induction l; cbn; [easy|]. rewrite zsum_app. cbn. lia. Qed.

Lemma zsum_nonneg l : Forall (fun x => 0 <= x)%Z l -> (0 <= zsum l)%Z.
Proof. induction 1; cbn; lia. Qed.

Lemma greedy_all l t : Forall (fun x => 0 <= x)%Z l -> (zsum l <= t)%Z -> greedy t l = l.
Proof.
  intros H; revert t; induction H as [|x l Hx Hl IH]; cbn; intros t Ht; [easy|].
  pose proof (zsum_nonneg _ Hl). rewrite Z.min_l by lia. f_equal. apply IH. lia.
Qed.

Lemma greedy_app l1 l2 t :
  greedy t (l1 ++ l2) = greedy t l1 ++ greedy (t - zsum (greedy t l1)) l2.
Proof.
  revert t; induction l1 as [|x l1 IH]; cbn; intros t.
  - f_equal. lia.
  - rewrite IH. do 3 f_equal. lia.
Qed.

Lemma greedy_sum l t :
  Forall (fun x => 0 <= x)%Z l -> (0 <= t)%Z -> zsum (greedy t l) = Z.min (zsum l) t.
Proof.
  intros H; revert t; induction H as [|x l Hx Hl IH]; cbn; intros t Ht; [lia|].
  pose proof (zsum_nonneg _ Hl). rewrite IH by lia. lia.
Qed.

Lemma cap_rev_greedy rv t :
  Forall (fun x => 0 <= x)%Z rv -> (0 <= t)%Z ->
  cap_rev rv t = Ok (rev (greedy t (rev rv))).
Proof.
  intros Hf Ht. revert Hf. induction rv as [|x rv IH]; intros Hf.
  - cbn [cap_rev zsum]. destruct (Z.leb_spec (0 - t) 0); [easy|lia].
  - inversion Hf as [|? ? Hx Hr]; subst.
    assert (Hr' : Forall (fun x => 0 <= x)%Z (rev rv)) by now apply Forall_rev.
    cbn [cap_rev]. destruct (Z.leb_spec (zsum (x :: rv) - t) 0) as [Hle|Hgt].
    + rewrite greedy_all; [now rewrite rev_involutive|now apply Forall_rev|].
      rewrite zsum_rev. lia.
    + cbn [zsum] in *. cbn [rev]. rewrite greedy_app, rev_app_distr. cbn [greedy rev app].
      destruct (Z.leb_spec (x + zsum rv - t) x) as [Hx2|Hx2].
      * rewrite (greedy_all (rev rv)); [|easy|rewrite zsum_rev; lia].
        rewrite rev_involutive, zsum_rev. do 2 f_equal. lia.
      * rewrite IH by easy. cbn. do 2 f_equal.
        rewrite greedy_sum by easy. rewrite zsum_rev. lia.
Qed.

Lemma cap_to_total_greedy values t :
  Forall (fun x => 0 <= x)%Z values -> (0 <= t)%Z ->
  cap_to_total values t = Ok (greedy t values).
Proof.
  intros Hf Ht. unfold cap_to_total. rewrite cap_rev_greedy; [|now apply Forall_rev|easy].
  cbn. now rewrite !rev_involutive.
Qed.

Lemma greedy_length l t : length (greedy t l) = length l.
Proof. revert t; induction l; cbn; auto. Qed.

Lemma greedy_bounds l t :
  Forall (fun x => 0 <= x)%Z l -> (0 <= t)%Z ->
  Forall2 (fun c x => 0 <= c <= x)%Z (greedy t l) l.
Proof.
  intros H; revert t; induction H as [|x l Hx Hl IH]; cbn; intros t Ht; constructor.
  - lia.
  - apply IH. lia.
Qed.

(** ** Loops *)
Lemma while_fuel_mono {S} (c : S -> bool) b : forall n m s s',
  n <= m -> while_fuel n c b s = Ok s' -> while_fuel m c b s = Ok s'.
Proof.
  induction n as [|n IH]; intros [|m] s s' Hle; cbn; try easy.
  - now destruct (c s).
  - destruct (c s); [|easy]. apply IH. lia.
Qed.

Lemma while_fuel_diverges {S} (I : S -> Prop) (c : S -> bool) b :
  (forall s, I s -> c s = true) -> (forall s, I s -> I (b s)) ->
  forall n s, I s -> while_fuel n c b s = Err Diverges.
Proof.
  intros Hc Hb. induction n as [|n IH]; cbn; intros s Hs; rewrite Hc by easy; auto.
Qed.

Lemma loop_down_spec upper step : (0 < step)%Z -> forall n s,
  (s - upper <= Z.of_nat n * step)%Z ->
  exists k, (0 <= k)%Z /\ while_fuel n (fun r => upper <? r)%Z (fun r => r - step)%Z s = Ok (s - k * step)%Z
            /\ (s - k * step <= upper)%Z.
Proof.
  intros Hs. induction n as [|n IH]; intros s Hn; cbn [while_fuel];
    destruct (Z.ltb_spec upper s) as [Hl|Hl].
  - exfalso. nia.
  - exists 0%Z. repeat split; [lia|f_equal; lia|lia].
  - destruct (IH (s - step)%Z) as (k & Hk & Hw & Hle); [nia|].
    exists (k + 1)%Z. rewrite Hw. repeat split; [lia|f_equal; lia|lia].
  - exists 0%Z. repeat split; [lia|f_equal; lia|lia].
Qed.

Lemma loop_up_spec upper step : (0 < step)%Z -> forall n s,
  (s <= upper)%Z -> (upper - s < (Z.of_nat n + 1) * step)%Z ->
  exists k, (0 <= k)%Z /\
    while_fuel n (fun r => step <=? upper - r)%Z (fun r => r + step)%Z s = Ok (s + k * step)%Z
    /\ (s + k * step <= upper)%Z /\ (upper < s + k * step + step)%Z.
Proof.
  intros Hs. induction n as [|n IH]; intros s Hle Hn; cbn [while_fuel];
    destruct (Z.leb_spec step (upper - s)) as [Hl|Hl].
  - exfalso. nia.
  - exists 0%Z. repeat split; [lia|f_equal; lia|lia|lia].
  - destruct (IH (s + step)%Z) as (k & Hk & Hw & Hle1 & Hle2); [lia|nia|].
    exists (k + 1)%Z. rewrite Hw. repeat split; [lia|f_equal; lia|lia|lia].
  - exists 0%Z. repeat split; [lia|f_equal; lia|lia|lia].
Qed.

Lemma latest_date_fuel_spec fuel start upper step :
  (0 < step)%Z -> (Z.abs (upper - start) < (Z.of_nat fuel) * step)%Z ->
  exists n d, latest_date_before_fuel fuel start upper step = Ok d /\
    d = (start + n * step)%Z /\ (d <= upper)%Z /\ (upper < d + step)%Z.
Proof.
  intros Hs Hf. unfold latest_date_before_fuel.
  destruct (loop_down_spec upper step Hs fuel start) as (k & Hk & Hw & Hle); [lia|].
  rewrite Hw. cbn [bind].
  destruct (Z.eq_dec k 0) as [->|Hk0].
  - replace (start - 0 * step)%Z with start in * by lia.
    destruct (loop_up_spec upper step Hs fuel start) as (k' & Hk' & Hw' & Hl1 & Hl2); [lia|lia|].
    exists k', (start + k' * step)%Z. rewrite Hw'. repeat split; lia.
  - (* at least one step down: the result is within one step of the bound *)
    destruct (Z_le_gt_dec (upper + 1) start) as [Hgt|Hle2].
    + assert (Hb : exists k', (0 <= k')%Z /\ while_fuel fuel (fun r => step <=? upper - r)%Z
                (fun r => r + step)%Z (start - k * step)%Z = Ok (start - k * step + k' * step)%Z
              /\ (start - k * step + k' * step <= upper)%Z
              /\ (upper < start - k * step + k' * step + step)%Z).
      { apply loop_up_spec; [easy|easy|].
        assert (Hkb : (start - upper > (k - 1) * step)%Z).
        { clear -Hw Hs Hk0 Hk Hgt. revert start k Hk Hk0 Hw Hgt.
          induction fuel as [|fuel IH]; intros start k Hk Hk0 Hw Hgt; cbn [while_fuel] in Hw;
            destruct (Z.ltb_spec upper start); try discriminate; try lia.
          destruct (Z.eq_dec k 1) as [->|Hk1]; [lia|].
          destruct (Z_le_gt_dec (upper + 1) (start - step)) as [Hg|Hg].
          - specialize (IH (start - step)%Z (k - 1)%Z). replace (k - 1 - 1)%Z with (k - 2)%Z in IH by lia.
            assert (Hi : (start - step - upper > (k - 2) * step)%Z).
            { apply IH; try lia. rewrite Hw. f_equal. lia. }
            lia.
          - exfalso. destruct fuel; cbn [while_fuel] in Hw;
              destruct (Z.ltb_spec upper (start - step)); try lia;
              injection Hw as Hw; nia. }
        nia. }
      destruct Hb as (k' & Hk' & Hw' & Hl1 & Hl2).
      exists (k' - k)%Z, (start - k * step + k' * step)%Z. rewrite Hw'. repeat split; lia.
    + exfalso. clear -Hw Hle2 Hk0 Hs Hk. destruct fuel; cbn [while_fuel] in Hw;
        destruct (Z.ltb_spec upper start); try lia; injection Hw as Hw; nia.
Qed.

Lemma latest_date_before_total start upper step :
  (0 < step)%Z ->
  exists n d, latest_date_before start upper step = Ok d /\
    d = (start + n * step)%Z /\ (d <= upper)%Z /\ (upper < d + step)%Z.
Proof.
  intros Hs. apply latest_date_fuel_spec; [easy|].
  assert (Hq := Z.mul_succ_div_gt (Z.abs (upper - start)) step Hs).
  rewrite Nat2Z.inj_succ, Z2Nat.id.
  - lia.
  - pose proof (Z.div_pos (Z.abs (upper - start)) step). lia.
Qed.

Lemma latest_date_before_unique start upper step d1 d2 n1 n2 :
  (0 < step)%Z ->
  d1 = (start + n1 * step)%Z -> (d1 <= upper < d1 + step)%Z ->
  d2 = (start + n2 * step)%Z -> (d2 <= upper < d2 + step)%Z -> d1 = d2.
Proof. intros. assert (n1 = n2) by nia. lia. Qed.

(** With a non-positive step, the search never ends as soon as one of its
    loops is entered. *)
Lemma latest_date_before_diverges start upper step :
  (step <= 0)%Z -> (upper < start \/ step <= upper - start)%Z ->
  forall fuel, latest_date_before_fuel fuel start upper step = Err Diverges.
Proof.
  intros Hs He fuel. unfold latest_date_before_fuel.
  destruct (Z.ltb_spec upper start) as [Hl|Hl].
  - rewrite (while_fuel_diverges (fun r => upper < r)%Z); [easy| | |easy].
    + intros s Hs'. now apply Z.ltb_lt.
    + intros s Hs'. lia.
  - assert (E : while_fuel fuel (fun r => upper <? r)%Z (fun r => r - step)%Z start = Ok start).
    { destruct fuel; cbn; destruct (Z.ltb_spec upper start); easy || lia. }
    rewrite E. cbn [bind].
    apply (while_fuel_diverges (fun r => step <= upper - r)%Z).
    + intros s Hs'. now apply Z.leb_le.
    + intros s Hs'. lia.
    + lia.
Qed.

(** ** Random data *)
Lemma take_nth {A} idxs (l l' : list A) :
  take idxs l = Ok l' <-> Forall2 (fun i x => nth_error l i = Some x) idxs l'.
Proof.
  unfold take. rewrite mapr_ok_Forall2. split; intros HF; induction HF as [|i x is xs Hi _ IH];
    constructor; auto.
  - destruct (nth_error l i); congruence.
  - now rewrite Hi.
Qed.

Lemma take_ok {A} idxs (l : list A) :
  Forall (fun i => i < length l) idxs -> exists l', take idxs l = Ok l'.
Proof.
  unfold take. induction 1 as [|i idxs Hi _ [l' IH]]; cbn; [eauto|].
  apply nth_error_Some in Hi. destruct (nth_error l i); [|easy]. cbn. rewrite IH. cbn. eauto.
Qed.

Lemma take_length {A} idxs (l l' : list A) : take idxs l = Ok l' -> length l' = length idxs.
Proof. apply mapr_ok_length. Qed.

Lemma take_In {A} idxs (l l' : list A) x : take idxs l = Ok l' -> In x l' -> In x l.
Proof.
  rewrite take_nth. intros HF. induction HF as [|i y is ys Hi _ IH]; cbn; [easy|].
  intros [<-|Hx]; [|auto]. now apply nth_error_In in Hi.
Qed.

Lemma map_fst_combine {A B} (l1 : list A) (l2 : list B) :
  length l1 <= length l2 -> map fst (combine l1 l2) = l1.
Proof.
  revert l2; induction l1 as [|x l1 IH]; intros [|y l2]; cbn; intros Hl; try easy; try lia.
  f_equal. apply IH. lia.
Qed.

Lemma map_snd_combine {A B} (l1 : list A) (l2 : list B) :
  length l2 <= length l1 -> map snd (combine l1 l2) = l2.
Proof.
  revert l2; induction l1 as [|x l1 IH]; intros [|y l2]; cbn; intros Hl; try easy; try lia.
  f_equal. apply IH. lia.
Qed.

Lemma make_random_assign_spec {A B} (set1 : list A) (set2 : list B) r res r' :
  make_random_assign set1 set2 r = Ok (res, r') ->
  map fst res = set1 /\ Forall (fun p => In (snd p) set2) res.
Proof.
  unfold make_random_assign. intros H. apply bind_ok in H as ([idx r1] & Hc & H).
  apply bind_ok in H as (chosen & Ht & [= <- <-]).
  apply choice_spec in Hc as [Hl _].
  assert (Hlc := take_length _ _ _ Ht). split.
  - apply map_fst_combine. lia.
  - apply Forall_forall. intros [a b] Hab. apply in_combine_r in Hab. cbn.
    eapply take_In; eauto.
Qed.

Lemma make_random_assign_total {A B} (set1 : list A) (set2 : list B) r :
  set2 <> [] \/ set1 = [] -> exists res r', make_random_assign set1 set2 r = Ok (res, r').
Proof.
  intros Hs. unfold make_random_assign.
  destruct (choice (length set2) (length set1) r) as [[idx r1]|e] eqn:Hc.
  - cbn. destruct (choice_spec _ _ _ _ _ Hc) as [_ Hf]. apply take_ok in Hf as [l' ->]. cbn. eauto.
  - exfalso. unfold choice in Hc. destruct (_ && _) eqn:E; [|easy].
    apply andb_true_iff in E as [E1 E2]. apply Nat.eqb_eq in E1.
    destruct Hs as [Hs| ->]; [destruct set2; easy|easy].
Qed.

Lemma bipartite_spec {A B} (g1 : list A) (g2 : list B) p edges res :
  make_random_bipartite_data g1 g2 p edges = Ok res ->
  Forall (fun e => In (fst e) g1 /\ In (snd e) g2) res.
Proof.
  unfold make_random_bipartite_data. destruct (_ || _); [intros [= <-]; constructor|].
  destruct edges as [|e0 edges]; [easy|]. rewrite mapr_ok_Forall2.
  induction 1 as [|e ab es res He _ IH]; constructor; [|easy].
  destruct (nth_error g1 (fst e)) eqn:E1; [|easy].
  destruct (nth_error g2 (snd e - length g1)) eqn:E2; [|easy].
  injection He as <-. cbn. split; eapply nth_error_In; eauto.
Qed.

Lemma bipartite_edges {A B} (g1 : list A) (g2 : list B) p edges :
  edges <> [] -> g1 <> [] -> g2 <> [] -> ~ (p == 0)%Q ->
  Forall (fun e => fst e < length g1 /\ length g1 <= snd e < length g1 + length g2) edges ->
  exists res, make_random_bipartite_data g1 g2 p edges = Ok res /\
    Forall2 (fun e ab => nth_error g1 (fst e) = Some (fst ab) /\
                         nth_error g2 (snd e - length g1) = Some (snd ab)) edges res.
Proof.
  intros He H1 H2 Hp Hf. unfold make_random_bipartite_data.
  destruct (Nat.eqb_spec (length g1) 0) as [E|_]; [now destruct g1|].
  destruct (Nat.eqb_spec (length g2) 0) as [E|_]; [now destruct g2|].
  destruct (Qeq_bool p 0) eqn:E; [now apply Qeq_bool_iff in E|]. cbn [orb].
  destruct edges as [|e0 edges]; [easy|]. clear He E. revert Hf. generalize (e0 :: edges) as es.
  induction es as [|e es IH]; intros Hf.
  - exists []. split; [easy|constructor].
  - inversion Hf as [|? ? [Hl1 Hl2] Hf']; subst. destruct (IH Hf') as (res & Hr & HF).
    cbn. destruct (nth_error g1 (fst e)) as [a|] eqn:E1; [|apply nth_error_None in E1; lia].
    destruct (nth_error g2 (snd e - length g1)) as [b|] eqn:E2; [|apply nth_error_None in E2; lia].
    cbn. rewrite Hr. cbn. eexists. split; [reflexivity|]. constructor; auto.
Qed.
