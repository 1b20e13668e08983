(** Construction, alignment and use of cyclic timers for any clock step. *)
From Coq Require Import Qround Lqa.
From Verif Require Import Base BaseFacts Rng RngFacts Utils UtilsFacts Relationship RelationshipFacts Frame Gens GensProps Clock SpecClock ClockFacts ClockProps Resample SpecResample ResampleFacts.
Local Open Scope nat_scope.

(** ** Rotation of a table *)
Lemma rotate_table_cons d0 c0 t : rotate_table ((d0, c0) :: t) = map (fun dc => (fst dc, fminus (snd dc) c0)) t ++ [(d0, Some 1%Q)].
Proof.
  unfold rotate_table. cbn [map skipn firstn fst snd]. unfold set_last_row.
  rewrite rev_app_distr. cbn [rev app]. now rewrite rev_involutive.
Qed.

Lemma rotate_table_dates d0 c0 t : map fst (rotate_table ((d0, c0) :: t)) = map fst t ++ [d0].
Proof. rewrite rotate_table_cons, map_app, map_map. reflexivity. Qed.

(** the dates of [n] bins, rotated by [j] *)
Definition dated (n : nat) (start cstep : Z) (j : nat) (l : list (Z * fval)) : Prop :=
  map fst l = map (fun i => start + Z.of_nat ((j + i) mod n) * cstep)%Z (seq 0 n).

Lemma dated_length n start cstep j l : dated n start cstep j l -> length l = n.
Proof. intros H. rewrite <- (map_length fst), H, map_length, seq_length. reflexivity. Qed.

Lemma dated_step n start cstep j l : dated n start cstep j l -> l <> [] -> dated n start cstep (S j) (rotate_table l).
Proof.
  intros H Hl. destruct l as [|[d0 c0] t]; [easy|]. unfold dated in *. rewrite rotate_table_dates.
  pose proof (dated_length _ _ _ _ _ H) as L. cbn [length] in L. destruct n as [|n]; [lia|].
  cbn [map seq fst] in H. injection H as Hd Ht. rewrite Ht, Hd, seq_S, map_app, <- seq_shift, map_map. f_equal.
  - apply map_ext. intros i. replace (S j + i) with (j + S i) by lia. reflexivity.
  - cbn [map]. rewrite Nat.add_0_l. replace (S j + n) with (j + 0 + 1 * S n) by lia. rewrite Nat.mod_add by lia. reflexivity.
Qed.

Lemma dated_before n start cstep j l now : 0 < n -> dated n start cstep j l ->
  table_before now l = (start + Z.of_nat (j mod n) * cstep <? now)%Z.
Proof.
  intros Hn H. pose proof (dated_length _ _ _ _ _ H) as L. destruct l as [|[d c] t]; [cbn in L; lia|]. cbn [table_before].
  destruct n as [|n]; [lia|]. unfold dated in H. cbn [map seq fst] in H. injection H as -> _. now rewrite Nat.add_0_r.
Qed.

Lemma table_align_ok n start cstep now J : J < n -> (now <= start + Z.of_nat J * cstep)%Z ->
  (forall i, i < J -> (start + Z.of_nat i * cstep < now)%Z) ->
  forall fuel j l, j <= J -> J - j <= fuel -> dated n start cstep j l ->
  while_fuel fuel (table_before now) rotate_table l = Ok (Nat.iter (J - j) rotate_table l).
Proof.
  intros HJ Hge Hlt. induction fuel as [|fuel IH]; intros j l Hj Hf Hd; cbn [while_fuel];
    rewrite (dated_before n start cstep j l now ltac:(lia) Hd), Nat.mod_small by lia.
  - assert (j = J) by lia. subst j. rewrite Nat.sub_diag. destruct (Z.ltb_spec (start + Z.of_nat J * cstep) now); [lia|reflexivity].
  - destruct (Z.ltb_spec (start + Z.of_nat j * cstep) now) as [Hl|Hl].
    + assert (j <> J) by (intros ->; lia). rewrite (IH (S j)); [|lia|lia|].
      * replace (J - j) with (J - S j + 1) by lia. f_equal. symmetry. rewrite <- iter_add. reflexivity.
      * apply dated_step; [exact Hd|]. intros ->. pose proof (dated_length _ _ _ _ _ Hd). cbn in *. lia.
    + assert (j = J). { destruct (Nat.eq_dec j J); [easy|]. specialize (Hlt j ltac:(lia)). lia. }
      subst j. rewrite Nat.sub_diag. reflexivity.
Qed.

Lemma table_align_diverges n start cstep now : 0 < n ->
  (forall i, i < n -> (start + Z.of_nat i * cstep < now)%Z) ->
  forall l, dated n start cstep 0 l -> forall fuel, while_fuel fuel (table_before now) rotate_table l = Err Diverges.
Proof.
  intros Hn Hlt l Hl fuel. apply (while_fuel_diverges (fun l => exists j, dated n start cstep j l)).
  - intros l' [j Hj]. rewrite (dated_before n start cstep j l' now Hn Hj). apply Z.ltb_lt. apply Hlt. apply Nat.mod_upper_bound. lia.
  - intros l' [j Hj]. exists (S j). apply dated_step; [exact Hj|]. intros ->. pose proof (dated_length _ _ _ _ _ Hj). cbn in *. lia.
  - eauto.
Qed.

(** ** Tables without missing values *)
Definition exact_table (l : list (Z * Q)) : list (Z * fval) := map (fun dc => (fst dc, Some (snd dc))) l.

Lemma rotate_exact l : rotate_table (exact_table l) = exact_table (rotate_profile l).
Proof.
  destruct l as [|[d0 c0] t]; [reflexivity|]. unfold exact_table at 1. cbn [map fst snd]. rewrite rotate_table_cons, rotate_cons.
  unfold exact_table. rewrite map_app, !map_map. cbn [map fst snd]. f_equal. apply map_ext. intros [d c]. reflexivity.
Qed.

Lemma rotate_exact_iter k l : Nat.iter k rotate_table (exact_table l) = exact_table (Nat.iter k rotate_profile l).
Proof. induction k as [|k IH]; [reflexivity|]. change (rotate_table (Nat.iter k rotate_table (exact_table l)) = exact_table (rotate_profile (Nat.iter k rotate_profile l))).
  now rewrite IH, rotate_exact.
Qed.

Lemma rotated_iter W n base cstep l : (forall i, W (i + n) = W i) -> 0 < n -> rotated W n base cstep 0 l ->
  forall k, rotated W n base cstep k (Nat.iter k rotate_profile l).
Proof.
  intros HW Hn H. induction k as [|k IH]; [exact H|].
  change (rotated W n base cstep (S k) (rotate_profile (Nat.iter k rotate_profile l))). apply rotated_step; [exact HW|exact IH|].
  now apply (rotated_nonempty W n base cstep k).
Qed.

Lemma fsum_exact l : fsum (map Some l) = qsum l.
Proof. induction l as [|x l IH]; cbn [map fsum qsum]; [reflexivity|]. now rewrite IH. Qed.

Lemma fcumsum_exact l : forall acc, fcumsum acc (map Some l) = map Some (cumsum acc l).
Proof. induction l as [|x l IH]; intros acc; cbn [map fcumsum cumsum]; [reflexivity|]. now rewrite IH. Qed.

Lemma combine_exact (ds : list Z) qs : combine ds (map Some qs) = exact_table (combine ds qs).
Proof. unfold exact_table. revert qs. induction ds as [|d ds IH]; intros [|q qs]; cbn [combine map fst snd]; try reflexivity. now rewrite IH. Qed.

Lemma profile_table_exact (ser : list (Z * fval)) (ws : list Q) : map snd ser = map Some ws -> ~ (qsum ws == 0)%Q ->
  profile_table ser = exact_table (combine (map fst ser) (cumsum 0 (map (fun w => w / qsum ws)%Q ws))).
Proof.
  intros H Hq. unfold profile_table. rewrite H. change (fsum (map Some ws)) with (fsum (map (@Some Q) ws)). rewrite fsum_exact, map_map.
  assert (E : map (fun x => fdivide (qsum ws) (Some x)) ws = map Some (map (fun w => (w / qsum ws)%Q) ws)).
  { rewrite map_map. apply map_ext. intros w. unfold fdivide. destruct (Qeq_bool (qsum ws) 0) eqn:E; [|reflexivity].
    apply Qeq_bool_iff in E. contradiction. }
  rewrite E, fcumsum_exact. apply combine_exact.
Qed.

Lemma combine_cdf_rotated W n start cstep : (forall i, W (i + n) = W i) -> ~ (pre W n == 0)%Q ->
  rotated W n start cstep 0 (combine (map (fun k => start + Z.of_nat k * cstep)%Z (seq 0 n))
                                     (cumsum 0 (map (fun w => w / qsum (map W (seq 0 n)))%Q (map W (seq 0 n))))).
Proof.
  intros HW Hq. split.
  - rewrite combine_length, map_length, seq_length, cumsum_length, !map_length, seq_length. lia.
  - intros i d c Hi.
    assert (Hin : i < n).
    { assert (Hx : nth_error (combine (map (fun k => (start + Z.of_nat k * cstep)%Z) (seq 0 n))
           (cumsum 0 (map (fun w => (w / qsum (map W (seq 0 n)))%Q) (map W (seq 0 n))))) i <> None) by congruence.
      apply nth_error_Some in Hx. rewrite combine_length, map_length, seq_length in Hx. lia. }
    assert (Hfst := map_nth_error fst _ _ Hi). assert (Hsnd := map_nth_error snd _ _ Hi). cbn [fst snd] in Hfst, Hsnd.
    rewrite map_fst_combine in Hfst by now rewrite cumsum_length, !map_length, !seq_length.
    rewrite map_snd_combine in Hsnd by now rewrite cumsum_length, !map_length, !seq_length. split.
    + rewrite nth_error_map, (nth_error_nth' _ 0), seq_nth in Hfst by now rewrite ?seq_length.
      cbn in Hfst. injection Hfst as <-. cbn [Nat.add]. now rewrite Nat.mod_small by easy.
    + apply cumsum_nth in Hsnd. rewrite Hsnd, firstn_map, qsum_map_div, firstn_map, firstn_seq by lia. rewrite !qsum_window. cbn [pre Nat.add].
      replace (i + 1) with (S i) by lia. cbn [pre]. field. intros He. apply Hq. lra.
Qed.

(** the cdf of a rotated profile *)
Lemma rotated_is_cdf W n start cstep j l : (forall i, W (i + n) = W i) -> 0 < n -> (0 < pre W n)%Q -> rotated W n start cstep j l ->
  is_cdf_of (map snd l) (map (fun i => W (j + i)) (seq 0 n)).
Proof.
  intros HW Hn Hp [Hl H].
  assert (E : forall m, map (fun i => W (j + i)) (seq 0 m) = map W (seq j m)).
  { intros m. assert (G : forall b, map (fun i => W (j + i)) (seq b m) = map W (seq (j + b) m)).
    { clear. induction m as [|m IH]; intros b; cbn [seq map]; [reflexivity|]. f_equal. rewrite IH. do 2 f_equal. lia. }
    rewrite G, Nat.add_0_r. reflexivity. }
  assert (S : (qsum (map (fun i => W (j + i)%nat) (seq 0 n)) == pre W n)%Q).
  { rewrite E, qsum_window, pre_period by exact HW. ring. }
  split; [rewrite !map_length, seq_length; exact Hl|]. split; [rewrite S; exact Hp|].
  intros i c Hi. rewrite nth_error_map in Hi. destruct (nth_error l i) as [[d c']|] eqn:En; [|discriminate]. injection Hi as <-.
  destruct (H i d c' En) as [_ Hc]. cbn [snd]. rewrite S, Hc. assert (i < n). { rewrite <- Hl. apply nth_error_Some. congruence. }
  rewrite firstn_map, firstn_seq by lia. rewrite E, qsum_window. replace (j + i + 1) with (j + Datatypes.S i) by lia. reflexivity.
Qed.

(** ** Binary search *)
Definition is_slot (arr : list fval) (key : Q) (l : nat) : Prop :=
  l <= length arr /\ (forall i, i < l -> fless (nth i arr None) key = true) /\
  (forall i, l <= i -> i < length arr -> fless (nth i arr None) key = false).

Lemma is_slot_unique arr key l1 l2 : is_slot arr key l1 -> is_slot arr key l2 -> l1 = l2.
Proof.
  intros (A1 & A2 & A3) (B1 & B2 & B3). destruct (Nat.lt_trichotomy l1 l2) as [H|[H|H]]; [|exact H|].
  - pose proof (A3 l1 (le_n _) ltac:(lia)). pose proof (B2 l1 H). congruence.
  - pose proof (B3 l2 (le_n _) ltac:(lia)). pose proof (A2 l2 H). congruence.
Qed.

Definition sorted_for (arr : list fval) (key : Q) : Prop :=
  forall i j, i <= j -> j < length arr -> fless (nth j arr None) key = true -> fless (nth i arr None) key = true.

Lemma bisect_spec arr key : sorted_for arr key -> forall fuel lo hi, hi - lo < fuel -> lo <= hi -> hi <= length arr ->
  (forall i, i < lo -> fless (nth i arr None) key = true) ->
  (forall i, hi <= i -> i < length arr -> fless (nth i arr None) key = false) ->
  exists l, bisect fuel arr key lo hi = (l, l) /\ is_slot arr key l.
Proof.
  intros Hs. induction fuel as [|fuel IH]; intros lo hi Hf Hl Hh H1 H2; [lia|]. cbn [bisect].
  destruct (Nat.ltb_spec lo hi) as [H|H].
  - assert (Hd : (hi - lo) / 2 < hi - lo) by (apply Nat.div_lt; lia). set (mid := lo + (hi - lo) / 2) in *.
    destruct (fless (nth mid arr None) key) eqn:E.
    + apply IH; [lia|lia|lia| |exact H2]. intros i Hi. apply (Hs i mid); [lia|lia|exact E].
    + apply IH; [lia|lia|lia|exact H1|]. intros i Hi Hi'. destruct (fless (nth i arr None) key) eqn:E'; [|reflexivity].
      rewrite (Hs mid i Hi Hi' E') in E. discriminate.
  - exists lo. replace hi with lo by lia. split; [reflexivity|]. split; [lia|]. split; [exact H1|]. intros i Hi. apply H2. lia.
Qed.

Lemma fless_trans x k1 k2 : fless x k1 = true -> (k1 <= k2)%Q -> fless x k2 = true.
Proof. destruct x as [a|]; [|easy]. cbn [fless]. rewrite !Qltb_lt. lra. Qed.

Lemma search_keys_spec arr keys : (forall key, In key keys -> sorted_for arr key) -> forall last lo hi,
  lo <= length arr -> hi <= length arr ->
  (forall i, i < lo -> fless (nth i arr None) last = true) ->
  (forall i, hi <= i -> i < length arr -> fless (nth i arr None) last = false) ->
  Forall2 (is_slot arr) keys (search_keys arr last lo hi keys).
Proof.
  induction keys as [|key keys IH]; intros Hs last lo hi Hl Hh H1 H2; cbn [search_keys]; [constructor|].
  assert (B : exists lo0 hi0, (if Qltb last key then (lo, length arr) else (0, if hi <? length arr then S hi else length arr)) = (lo0, hi0) /\
     lo0 <= hi0 /\ hi0 <= length arr /\ (forall i, i < lo0 -> fless (nth i arr None) key = true) /\
     (forall i, hi0 <= i -> i < length arr -> fless (nth i arr None) key = false)).
  { destruct (Qltb last key) eqn:E.
    - apply Qltb_lt in E. exists lo, (length arr). split; [reflexivity|]. split; [exact Hl|]. split; [lia|]. split; [|intros i Hi Hi'; lia].
      intros i Hi. apply (fless_trans _ last); [auto|lra].
    - apply Qltb_nlt in E. eexists _, _. split; [reflexivity|]. destruct (Nat.ltb_spec hi (length arr)).
      + split; [lia|]. split; [lia|]. split; [intros i Hi; lia|]. intros i Hi Hi'. destruct (fless (nth i arr None) key) eqn:E'; [|reflexivity].
        rewrite <- (H2 i); [|lia|lia]. symmetry. apply (fless_trans _ key); [exact E'|lra].
      + split; [lia|]. split; [lia|]. split; [intros i Hi; lia|]. intros i Hi Hi'. lia. }
  destruct B as (lo0 & hi0 & -> & B1 & B2 & B3 & B4).
  destruct (bisect_spec arr key (Hs key (or_introl eq_refl)) (S (length arr)) lo0 hi0) as (l & -> & Hl1); [lia|exact B1|exact B2|exact B3|exact B4|].
  constructor; [exact Hl1|]. destruct Hl1 as (L1 & L2 & L3). apply IH; [intros k Hk; apply Hs; now right|exact L1|exact L1|exact L2|exact L3].
Qed.

Lemma searchsorted_spec arr keys : (forall key, In key keys -> sorted_for arr key) -> Forall2 (is_slot arr) keys (searchsorted arr keys).
Proof.
  intros Hs. unfold searchsorted. destruct keys as [|key keys]; [constructor|]. apply search_keys_spec; [exact Hs|lia|lia| |]; intros i Hi; lia.
Qed.

Lemma searchsorted_map arr keys (F : Q -> nat) : (forall key, In key keys -> sorted_for arr key /\ is_slot arr key (F key)) ->
  searchsorted arr keys = map F keys.
Proof.
  intros H. pose proof (searchsorted_spec arr keys (fun k Hk => proj1 (H k Hk))) as S. revert H S. generalize (searchsorted arr keys).
  induction keys as [|key keys IH]; intros slots H S; inversion S as [|? ? ? ? S1 S2]; subst; cbn [map]; [reflexivity|].
  f_equal; [|apply IH; [intros k Hk; apply H; now right|exact S2]].
  apply (is_slot_unique arr key); [exact S1|]. apply H. now left.
Qed.

(** a table without missing values *)
Lemma nth_map_Some (l : list Q) i : i < length l -> exists q, nth i (map (@Some Q) l) None = Some q /\ nth_error l i = Some q.
Proof.
  intros H. destruct (nth_error l i) as [q|] eqn:E; [|apply nth_error_None in E; lia]. exists q. split; [|reflexivity].
  apply nth_error_nth. now apply map_nth_error.
Qed.

Lemma exact_search cdf : (forall i j ci cj, i <= j -> nth_error cdf i = Some ci -> nth_error cdf j = Some cj -> (ci <= cj)%Q) ->
  forall key, sorted_for (map (@Some Q) cdf) key /\ is_slot (map (@Some Q) cdf) key (search_left cdf key).
Proof.
  intros Hm key. assert (S : sorted_for (map (@Some Q) cdf) key).
  { intros i j Hij Hj. rewrite map_length in Hj. destruct (nth_map_Some cdf j Hj) as (qj & E & Ej). destruct (nth_map_Some cdf i ltac:(lia)) as (qi & E' & Ei).
    rewrite E, E'. cbn [fless]. rewrite !Qltb_lt. pose proof (Hm i j qi qj Hij Ei Ej). lra. }
  split; [exact S|]. revert Hm S. induction cdf as [|c cdf IH]; intros Hm S.
  - split; [cbn; lia|]. split; intros i Hi; cbn in *; lia.
  - cbn [search_left map]. destruct (Qltb c key) eqn:E.
    + destruct IH as (I1 & I2 & I3).
      * intros i j ci cj Hij Hi Hj. exact (Hm (Datatypes.S i) (Datatypes.S j) ci cj ltac:(lia) Hi Hj).
      * intros i j Hij Hj. exact (S (Datatypes.S i) (Datatypes.S j) ltac:(lia) ltac:(cbn in *; lia)).
      * split; [cbn [length]; lia|]. split.
        -- intros [|i] Hi; [exact E|]. cbn [nth]. apply I2. lia.
        -- intros [|i] Hi Hi'; [lia|]. cbn [nth]. apply I3; [lia|cbn in Hi'; lia].
    + split; [lia|]. split; [intros i Hi; lia|]. intros i _ Hi. destruct (fless (nth i (Some c :: map Some cdf) None) key) eqn:E'; [|reflexivity].
      specialize (S 0 i ltac:(lia) Hi E'). cbn [map nth fless] in S. congruence.
Qed.

(** a table of missing values and ones *)
Definition blank (arr : list fval) : Prop := Forall (fun x => x = None \/ x = Some 1%Q) arr.
Lemma blank_search arr key : blank arr -> (key <= 1)%Q -> sorted_for arr key /\ is_slot arr key 0.
Proof.
  intros H Hk. assert (F : forall i, fless (nth i arr None) key = false).
  { intros i. destruct (nth_in_or_default i arr None) as [Hi| ->]; [|reflexivity].
    unfold blank in H. rewrite Forall_forall in H. destruct (H _ Hi) as [-> | ->]; [reflexivity|]. cbn [fless]. apply Qltb_nlt. exact Hk. }
  split; [|split; [lia|split; [intros i Hi; lia|intros i _ _; apply F]]]. intros i j _ _ Hj. rewrite F in Hj. discriminate.
Qed.

Lemma blank_rotate d0 l : (snd d0 = None \/ l = []) -> blank (map snd (rotate_table (d0 :: l))).
Proof.
  destruct d0 as [d0 c0]. cbn [snd]. intros H. rewrite rotate_table_cons, map_app. apply Forall_app. split; [|repeat constructor; now right].
  destruct H as [-> | ->]; [|constructor]. rewrite map_map. apply Forall_forall. intros x Hx. apply in_map_iff in Hx as ([d c] & <- & _).
  left. cbn [snd fminus]. now destruct c.
Qed.

(** ** generate *)
Lemma draw_lists z obs (F : Q -> nat) :
  (forall key, (key <= 1)%Q -> sorted_for (wide_cdf z) key /\ is_slot (wide_cdf z) key (F key)) ->
  exists ds st, length ds = length (positive_rows obs) /\
    Forall2 (fun o d => drawn_timer F (z_bins z) (snd o) (Some (Z.max 0 (d - 1)))) (positive_rows obs) ds /\
    wide_generate z obs =
      (let! timers := reindex_like (combine (map fst (positive_rows obs)) (map (fun d => Z.max 0 (d - 1)) ds)) obs in
       Ok (timers, mkWide (z_config z) st (z_bins z) (z_table z))).
Proof.
  intros HF. unfold wide_generate.
  set (low := filter (fun o => is_low (snd o)) obs). set (high := filter (fun o => is_high (snd o)) obs).
  destruct (draws uniform (length low) (z_state z)) as [us st1] eqn:E1.
  destruct (draws beta (length high) st1) as [bs st2] eqn:E2.
  pose proof (draws_length _ _ _ _ _ E1) as L1. pose proof (draws_length _ _ _ _ _ E2) as L2.
  pose proof (draws_Forall (fun u => 0 <= u /\ u < 1)%Q uniform uniform_range _ _ _ _ E1) as F1.
  pose proof (draws_Forall (fun u => 0 <= u /\ u <= 1)%Q beta beta_range _ _ _ _ E2) as F2. clear E1 E2.
  set (slot_low := fun (o : val * Q) (u : Q) => (Z.of_nat (F (snd (low_split (snd o) u))) + Z.of_nat (z_bins z) * fst (low_split (snd o) u))%Z).
  assert (P1 : forall o, In o low -> (0 < snd o /\ snd o <= 2)%Q).
  { intros o Ho. apply filter_In in Ho as [_ Ho]. now apply is_low_iff in Ho. }
  assert (P2 : forall o, In o high -> (2 < snd o)%Q).
  { intros o Ho. apply filter_In in Ho as [_ Ho]. now apply is_high_iff in Ho. }
  assert (K1 : searchsorted (wide_cdf z) (map snd (map (fun '((_, a), u) => low_split a u) (combine low us)))
             = map F (map snd (map (fun '((_, a), u) => low_split a u) (combine low us)))).
  { apply searchsorted_map. intros key Hk. apply HF. apply in_map_iff in Hk as ([c f] & <- & Hk).
    apply in_map_iff in Hk as ([[i a] u] & Hs & _). cbn [snd].
    apply (f_equal snd) in Hs. cbn [snd] in Hs. rewrite <- Hs. unfold low_split. cbn [snd].
    generalize (2 * u / a)%Q. intros x. pose proof (Qlt_floor x) as H. rewrite inject_Z_plus in H. change (inject_Z 1) with 1%Q in H. lra. }
  assert (K2 : searchsorted (wide_cdf z) bs = map F bs).
  { apply searchsorted_map. intros key Hk. apply HF. rewrite Forall_forall in F2. apply (F2 _ Hk). }
  rewrite K1, K2.
  exists (map (fun '(o, u) => slot_low o u) (combine low us) ++ map (fun u => Z.of_nat (F u)) bs), st2.
  assert (A1 : Forall2 (fun o d => drawn_timer F (z_bins z) (snd o) (Some (Z.max 0 (d - 1)))) low (map (fun '(o, u) => slot_low o u) (combine low us))).
  { clearbody low high. clear K1 K2 L2 F2 P2 HF. revert us L1 F1 P1. induction low as [|o low' IH]; intros [|u us'] Hl Hf Hp; cbn in Hl; try easy; constructor.
    - left. inversion Hf as [|? ? U1 Hf']; subst. split; [apply Hp; now left|]. exists u. split; [exact U1|]. reflexivity.
    - inversion Hf as [|? ? U Hf']; subst. apply IH; [lia|easy|]. intros o' Ho'. apply Hp. now right. }
  assert (A2 : Forall2 (fun o d => drawn_timer F (z_bins z) (snd o) (Some (Z.max 0 (d - 1)))) high (map (fun u => Z.of_nat (F u)) bs)).
  { clearbody low high. clear K1 K2 L1 F1 P1 HF A1. revert bs L2 F2 P2. induction high as [|o high' IH]; intros [|u bs'] Hl Hf Hp; cbn in Hl; try easy; constructor.
    - right. inversion Hf as [|? ? U1 Hf']; subst. split; [apply Hp; now left|]. exists u. split; [exact U1|]. reflexivity.
    - inversion Hf as [|? ? U Hf']; subst. apply IH; [lia|easy|]. intros o' Ho'. apply Hp. now right. }
  assert (HA : Forall2 (fun o d => drawn_timer F (z_bins z) (snd o) (Some (Z.max 0 (d - 1)))) (positive_rows obs)
     (map (fun '(o, u) => slot_low o u) (combine low us) ++ map (fun u => Z.of_nat (F u)) bs)).
  { unfold positive_rows. fold low high. now apply Forall2_app. }
  split; [symmetry; exact (Forall2_length _ _ _ HA)|]. split; [exact HA|].
  match goal with |- bind (reindex_like ?a _) _ = bind (reindex_like ?b _) _ => assert (Heq : a = b); [|now rewrite Heq] end.
  unfold positive_rows. fold low high. rewrite !map_app. unfold slot_low.
  clearbody low high. clear - L1 L2. revert us L1. induction low as [|[i a] low IH]; intros [|u us] HL; cbn in HL; try easy.
  - cbn [combine map app]. revert bs L2. induction high as [|[i a] high IH]; intros [|u bs] HB; cbn in HB; try easy.
    cbn [combine map fst]. f_equal. apply IH. lia.
  - cbn [combine map app fst snd]. f_equal. apply IH. lia.
Qed.

(** a timer for each row *)
Lemma reindexed (R : Q -> option Z -> Prop) obs (ds : list Z) (h : Z -> Z) : NoDup (map fst obs) -> length ds = length (positive_rows obs) ->
  Forall2 (fun o d => R (snd o) (Some (h d))) (positive_rows obs) ds -> (forall a, (a <= 0)%Q -> R a None) ->
  exists ts, reindex_like (combine (map fst (positive_rows obs)) (map h ds)) obs = Ok ts /\
    Forall2 (fun o t => fst t = fst o /\ R (snd o) (snd t)) obs ts.
Proof.
  intros Hnd Hds HF HN.
  set (all := combine _ _). assert (Hk : map fst all = map fst (positive_rows obs)) by now apply map_fst_combine_map.
  assert (Hnda : NoDup (map fst all)) by (rewrite Hk; now apply positive_rows_NoDup).
  assert (Hall : forall i z, In (i, z) all -> exists a, In (i, a) obs /\ R a (Some z)).
  { intros i z Hi. unfold all in Hi. eapply combine_In_Forall2 in Hi as ([j a] & d & Ho & Hs & Hj & Hz); [|exact HF].
    cbn in Hj. subst j. apply positive_rows_In in Ho as [Ho Ha]. exists a. split; [easy|]. subst z. exact Hs. }
  unfold reindex_like. destruct (list_eqb (map fst all) (map fst obs)) eqn:E.
  - apply list_eqb_eq in E. eexists. split; [reflexivity|].
    assert (Hgen : forall (obs2 : list (val * Q)) (all2 : list (val * Z)), (forall o, In o obs2 -> In o obs) ->
       map fst all2 = map fst obs2 -> (forall i z, In (i, z) all2 -> exists a, In (i, a) obs /\ R a (Some z)) ->
       Forall2 (fun (o : val * Q) t => fst t = fst o /\ R (snd o) (snd t)) obs2
         (map (fun kv => (fst kv, Some (snd kv))) all2)); [|now apply Hgen].
    clear E Hall Hnda Hk HF Hds. induction obs2 as [|[i a] obs2 IH]; intros [|[j z] all2] Hsub E Hall2; try discriminate E; constructor.
    + injection E as -> E. cbn [fst snd]. split; [easy|].
      destruct (Hall2 i z (or_introl eq_refl)) as (a' & Ha' & Ht).
      now rewrite (fst_inj_NoDup obs i a a' Hnd (Hsub (i, a) (or_introl eq_refl)) Ha').
    + injection E as -> E. apply IH; [intros; apply Hsub; now right|easy|]. intros i' z' Hi'. apply Hall2. now right.
  - assert (Hn : nodupb (map fst all) = true) by now rewrite nodupb_NoDup. rewrite Hn. cbn [negb].
    eexists. split; [reflexivity|].
    assert (Hgen : forall obs2, (forall o, In o obs2 -> In o obs) ->
       Forall2 (fun (o : val * Q) t => fst t = fst o /\ R (snd o) (snd t)) obs2
         (map (fun o => (fst o, dget (fst o) all)) obs2)); [|now apply Hgen].
    induction obs2 as [|[i a] obs2 IH]; cbn [map]; intros Hsub; constructor.
    + cbn [fst snd]. split; [easy|]. destruct (dget i all) as [z|] eqn:Eg.
      * apply dget_In in Eg. destruct (Hall _ _ Eg) as (a' & Ha' & Ht).
        now rewrite (fst_inj_NoDup obs i a a' Hnd (Hsub (i, a) (or_introl eq_refl)) Ha').
      * apply HN. apply dget_None in Eg. unfold dkeys in Eg. rewrite Hk in Eg.
        destruct (Qlt_le_dec 0 a) as [Ha|]; [|easy]. exfalso. apply Eg.
        apply in_map_iff. exists (i, a). split; [easy|]. apply positive_rows_In. split; [apply Hsub; now left|easy].
    + apply IH. intros o Ho. apply Hsub. now right.
Qed.

Lemma wide_timers z obs (F : Q -> nat) :
  (forall key, (key <= 1)%Q -> sorted_for (wide_cdf z) key /\ is_slot (wide_cdf z) key (F key)) -> NoDup (map fst obs) ->
  exists ts st, wide_generate z obs = Ok (ts, mkWide (z_config z) st (z_bins z) (z_table z)) /\
    Forall2 (fun o t => fst t = fst o /\ drawn_timer F (z_bins z) (snd o) (snd t)) obs ts.
Proof.
  intros HF Hnd. destruct (draw_lists z obs F HF) as (ds & st & Hds & HA & ->).
  destruct (reindexed (drawn_timer F (z_bins z)) obs ds (fun d => Z.max 0 (d - 1)) Hnd Hds HA) as (ts & E & HT); [auto|].
  rewrite E. cbn [bind]. eauto.
Qed.
