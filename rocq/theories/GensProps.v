(** Proofs about generators. *)
From Coq Require Import DecimalString DecimalFacts DecimalPos.
From Verif Require Import Base BaseFacts Rng RngFacts Utils UtilsFacts Relationship RelationshipSelect Frame Gens.

(** ** Heap *)
Lemma nth_error_set_nth_eq {A} i (x : A) l : i < length l -> nth_error (set_nth i x l) i = Some x.
Proof. revert i; induction l as [|y l IH]; intros [|i] H; cbn in *; try lia; [easy|]. apply IH. lia. Qed.

Lemma nth_error_set_nth_neq {A} i j (x : A) l : i <> j -> nth_error (set_nth i x l) j = nth_error l j.
Proof.
  revert i j; induction l as [|y l IH]; intros [|i] [|j] H; cbn in *; try easy.
  apply IH. congruence.
Qed.

Lemma set_nth_length {A} i (x : A) l : length (set_nth i x l) = length l.
Proof. revert i; induction l as [|y l IH]; intros [|i]; cbn; auto. Qed.

(** ** Sizes *)
Lemma np_generate_length m size st vs st' :
  np_generate m size st = Ok (vs, st') -> Z.of_nat (length vs) = size.
Proof.
  unfold np_generate. destruct (Z.ltb_spec size 0); [easy|].
  intros E0. cut (length vs = Z.to_nat size); [lia|]. revert E0.
  generalize (Z.to_nat size) as n. intros n. cbv zeta.
  destruct m as [|a [p|]|f].
  - destruct (draws uniform n st) as [us s] eqn:E. intros [= <- <-].
    rewrite map_length. eapply draws_length; eauto.
  - intros H'. apply bind_ok in H' as ([idx s] & H1 & H2). apply bind_ok in H2 as (x & H2 & H3).
    injection H3 as <- <-. apply take_length in H2. rewrite H2.
    apply choice_p_spec in H1. tauto.
  - intros H'. apply bind_ok in H' as ([idx s] & H1 & H2). apply bind_ok in H2 as (x & H2 & H3).
    injection H3 as <- <-. apply take_length in H2. rewrite H2.
    apply choice_spec in H1. tauto.
  - destruct (draws next_raw n st) as [us s] eqn:E. intros [= <- <-].
    rewrite map_length. eapply draws_length; eauto.
Qed.

Lemma gen_step_length g size vs g' :
  (0 <= size)%Z -> gen_step g size = Ok (vs, g') -> Z.of_nat (length vs) = size.
Proof.
  intros Hs. destruct g; cbn [gen_step]; try easy.
  - intros [= <- <-]. rewrite repeat_length. lia.
  - destruct (Z.eqb_spec (Z.of_nat (length vs0)) size); [|easy]. now intros [= <- <-].
  - destruct bound as [b|]; intros H; apply bind_ok in H as ([x s] & H & E); injection E as <- <-;
      eapply np_generate_length; eauto.
  - destruct (Z.ltb_spec size 0); [easy|].
    destruct (draws next_raw (Z.to_nat size) state) as [xs st] eqn:E.
    intros [= <- <-]. rewrite !map_length. apply draws_length in E. lia.
  - intros [= <- <-]. rewrite map_length, build_ids_length. lia.
  - intros [= <- <-]. rewrite map_length, seq_length. lia.
  - destruct (Z.ltb_spec size 0); [easy|]. intros H'.
    apply bind_ok in H' as ([idx s] & H1 & H2). apply bind_ok in H2 as (x & H2 & H3).
    injection H3 as <- <-. rewrite map_length. apply take_length in H2. rewrite H2.
    apply choice_norep_spec in H1. destruct H1 as (_ & H1 & _). lia.
Qed.

(** heaps without a vectorised map, whose result may have any length *)
Definition elementwise (g : gen) : Prop :=
  match g with GMap _ (MapVect _) => False | _ => True end.

Lemma gen_step_elementwise g size vs g' : gen_step g size = Ok (vs, g') -> elementwise g'.
Proof.
  destruct g; cbn [gen_step]; try easy.
  - now intros [= <- <-].
  - destruct (_ =? _)%Z; [|easy]. now intros [= <- <-].
  - destruct bound; intros H; apply bind_ok in H as ([x s] & _ & E); now injection E as <- <-.
  - destruct (size <? 0)%Z; [easy|]. destruct (draws _ _ _). now intros [= <- <-].
  - now intros [= <- <-].
  - now intros [= <- <-].
  - destruct (size <? 0)%Z; [easy|]. intros H.
    apply bind_ok in H as ([x s] & _ & H). apply bind_ok in H as (y & _ & H). now injection H as <- <-.
Qed.

Lemma In_set_nth {A} i (x y : A) l : In y (set_nth i x l) -> y = x \/ In y l.
Proof.
  revert i; induction l as [|z l IH]; intros [|i]; cbn; try tauto; intuition eauto.
  destruct (IH _ H0); auto.
Qed.

Lemma heap_calls_inv {H} (I : H -> Prop) call :
  (forall h n vs h', I h -> call h n = Ok (vs, h') -> I h') ->
  forall sizes h vss h', I h -> heap_calls call h sizes = Ok (vss, h') -> I h'.
Proof.
  intros Hc. induction sizes as [|n sizes IH]; intros h vss h' Hh E; cbn in E.
  - now injection E as <- <-.
  - apply bind_ok in E as ([vs h1] & E1 & E). apply bind_ok in E as ([vss' h2] & E2 & E).
    injection E as <- <-. eapply IH; [|eauto]. eauto.
Qed.

Lemma heap_calls_length {H} (call : H -> Z -> result (list val * H)) :
  forall sizes h vss h', heap_calls call h sizes = Ok (vss, h') -> length vss = length sizes.
Proof.
  induction sizes as [|n sizes IH]; intros h vss h' E; cbn in E.
  - now injection E as <- <-.
  - apply bind_ok in E as ([vs h1] & E1 & E). apply bind_ok in E as ([vss' h2] & E2 & E).
    injection E as <- <-. cbn. f_equal. eauto.
Qed.

Lemma heap_generate_elementwise fuel : forall h i size vs h',
  Forall elementwise h -> heap_generate fuel h i size = Ok (vs, h') -> Forall elementwise h'.
Proof.
  induction fuel as [|fuel IH]; intros h i size vs h' Hh E; cbn [heap_generate] in E; [easy|].
  destruct (nth_error h i) as [g|] eqn:Hi; [|easy].
  assert (D : forall g0, (let! (vs0, g') := gen_step g0 size in Ok (vs0, set_nth i g' h)) = Ok (vs, h') ->
              Forall elementwise h').
  { intros g0 E0. apply bind_ok in E0 as ([x g'] & E0 & E1). injection E1 as <- <-.
    apply Forall_forall. intros y Hy. apply In_set_nth in Hy as [->|Hy].
    - eapply gen_step_elementwise; eauto.
    - rewrite Forall_forall in Hh; auto. }
  destruct g; try (now apply (D _ E)).
  - destruct (parent <? i); [|easy]. apply bind_ok in E as ([s h1] & E1 & E).
    apply bind_ok in E as (x & _ & E). injection E as <- <-. eauto.
  - destruct (_ && _); [|easy]. apply bind_ok in E as ([s h1] & E1 & E).
    apply bind_ok in E as (ns & _ & E). apply bind_ok in E as ([vss h2] & E2 & E).
    injection E as <- <-. eapply heap_calls_inv with (I := Forall elementwise); [| |exact E2].
    + cbv beta. intros ha n x hb Ha Hb. exact (IH _ _ _ _ _ Ha Hb).
    + eauto.
Qed.

Lemma heap_generate_length fuel : forall h i size vs h',
  (0 <= size)%Z -> Forall elementwise h ->
  heap_generate fuel h i size = Ok (vs, h') -> Z.of_nat (length vs) = size.
Proof.
  induction fuel as [|fuel IH]; intros h i size vs h' Hs Hh E; cbn [heap_generate] in E; [easy|].
  destruct (nth_error h i) as [g|] eqn:Hi; [|easy].
  assert (D : forall g0, (let! (vs0, g') := gen_step g0 size in Ok (vs0, set_nth i g' h)) = Ok (vs, h') ->
              Z.of_nat (length vs) = size).
  { intros g0 E0. apply bind_ok in E0 as ([x g'] & E0 & E1). injection E1 as <- <-.
    eapply gen_step_length; eauto. }
  destruct g; try (now apply (D _ E)).
  - destruct (parent <? i); [|easy]. apply bind_ok in E as ([s h1] & E1 & E).
    apply bind_ok in E as (x & Hx & E). injection E as <- <-.
    rewrite Forall_forall in Hh. specialize (Hh _ (nth_error_In _ _ Hi)) as He.
    destruct f as [f|f]; [|easy]. apply mapr_ok_length in Hx. rewrite Hx.
    apply Forall_forall in Hh. exact (IH _ _ _ _ _ Hs Hh E1).
  - destruct (_ && _); [|easy]. apply bind_ok in E as ([s h1] & E1 & E).
    apply bind_ok in E as (ns & Hn & E). apply bind_ok in E as ([vss h2] & E2 & E).
    injection E as <- <-. rewrite map_length.
    apply heap_calls_length in E2. apply mapr_ok_length in Hn. rewrite E2, Hn. eapply IH; eauto.
Qed.

(** ** Sequential ids *)
Definition nonneg_sum (sizes : list Z) : nat := Z.to_nat (zsum sizes).

Lemma build_ids_app n m start prefix w :
  (0 <= n)%Z -> (0 <= m)%Z ->
  build_ids (n + m) start prefix w = build_ids n start prefix w ++ build_ids m (start + n) prefix w.
Proof.
  intros Hn Hm. unfold build_ids. rewrite Z2Nat.inj_add by lia.
  rewrite seq_app, map_app. f_equal. cbn [plus].
  rewrite <- (map_map (fun k => (Z.of_nat k)) (fun z => (prefix ++ zfill w (str_of_Z (start + n + z)))%string)).
  rewrite <- (map_map (fun k => (Z.of_nat k)) (fun z => (prefix ++ zfill w (str_of_Z (start + z)))%string)).
  generalize (Z.to_nat m) as k. intros k.
  assert (H : forall a, map Z.of_nat (seq (Z.to_nat n + a) k) = map (fun z => n + z)%Z (map Z.of_nat (seq a k))).
  { induction k as [|k IH]; intros a; cbn [seq map]; [easy|]. f_equal; [lia|].
    rewrite <- IH. f_equal. f_equal. lia. }
  rewrite <- (Nat.add_0_r (Z.to_nat n)), H, map_map.
  apply map_ext. intros z. do 3 f_equal. lia.
Qed.

Lemma seq_calls_concat prefix w : forall sizes start vss g',
  Forall (fun n => 0 <= n)%Z sizes ->
  heap_calls gen_step (GSeq start prefix w) sizes = Ok (vss, g') ->
  map (@length val) vss = map Z.to_nat sizes /\
  concat vss = map VStr (build_ids (zsum sizes) start prefix w) /\
  g' = GSeq (start + zsum sizes) prefix w.
Proof.
  induction sizes as [|n sizes IH]; intros start vss g' Hs E; cbn [heap_calls] in E.
  - injection E as <- <-. cbn. now rewrite Z.add_0_r.
  - apply Forall_cons_iff in Hs as [Hn Hs]. cbn [gen_step bind] in E.
    apply bind_ok in E as ([vss' g2] & E & E'). injection E' as <- <-.
    specialize (IH _ _ _ Hs E) as (IH1 & IH2 & IH3). cbn [map concat zsum].
    rewrite map_length, build_ids_length, IH1, IH2, IH3.
    split; [easy|]. split.
    + rewrite build_ids_app, map_app; [easy|lia|]. now apply zsum_nonneg.
    + f_equal. lia.
Qed.

Lemma seq_calls_total prefix w : forall sizes start,
  exists vss g', heap_calls gen_step (GSeq start prefix w) sizes = Ok (vss, g').
Proof.
  induction sizes as [|n sizes IH]; intros start; cbn [heap_calls]; [eauto|].
  cbn [gen_step bind]. destruct (IH (start + n)%Z) as (vss & g' & E). rewrite E. cbn. eauto.
Qed.

Lemma seq_ids_NoDup size start prefix w : NoDup (map VStr (build_ids size start prefix w)).
Proof. apply NoDup_map_inj; [now intros ? ? _ _ [=]|apply build_ids_NoDup]. Qed.

Lemma nth_error_build_ids size start prefix w k :
  k < Z.to_nat size ->
  nth_error (build_ids size start prefix w) k = Some (prefix ++ zfill w (str_of_Z (start + Z.of_nat k)))%string.
Proof.
  intros H. unfold build_ids. rewrite nth_error_map.
  rewrite (nth_error_nth' _ 0) by (now rewrite seq_length). rewrite seq_nth by easy. easy.
Qed.

(** ** MSISDN *)

(** length of decimal renderings *)
Fixpoint lu_len (d : Decimal.uint) : nat :=
  match d with
  | Decimal.Nil => 0
  | Decimal.D0 d | Decimal.D1 d | Decimal.D2 d | Decimal.D3 d | Decimal.D4 d
  | Decimal.D5 d | Decimal.D6 d | Decimal.D7 d | Decimal.D8 d | Decimal.D9 d => S (lu_len d)
  end.

Lemma string_of_uint_length d : String.length (NilEmpty.string_of_uint d) = lu_len d.
Proof. induction d; cbn; auto. Qed.

Fixpoint digits_only (s : string) : Prop :=
  match s with
  | EmptyString => True
  | String c s' => In c (list_ascii_of_string "0123456789") /\ digits_only s'
  end.

Lemma string_of_uint_digits d : digits_only (NilEmpty.string_of_uint d).
Proof. induction d; cbn; tauto. Qed.

Lemma zeros_digits n s : digits_only s -> digits_only (zeros n s).
Proof. induction n; cbn; tauto. Qed.

Lemma uint_lower d : Decimal.unorm d = d -> (1 < lu_len d) -> (10 ^ N.of_nat (lu_len d - 1) <= Pos.of_uint d)%N.
Proof.
  intros Hn Hl.
  assert (U : forall e, Unsigned.usize e = N.of_nat (lu_len e)).
  { induction e; cbn; try lia. }
  destruct d; cbn [lu_len] in *; try lia;
    try (cbn [Pos.of_uint]; rewrite Unsigned.of_uint_acc_rev, U; cbn [Nat.sub]; rewrite Nat.sub_0_r;
         generalize (10 ^ N.of_nat (lu_len d))%N; intros; lia).
  exfalso. cbn in Hn. unfold Decimal.unorm in Hn. cbn in Hn.
  assert (L : lu_len (Decimal.nzhead d) <= lu_len d) by (clear; induction d; cbn; lia).
  destruct (Decimal.nzhead d) eqn:E; try (rewrite Hn in L; cbn in L; lia).
  injection Hn as <-. cbn in Hl. lia.
Qed.

Lemma str_nonneg z : (0 <= z)%Z -> str_of_Z z = NilZero.string_of_uint (N.to_uint (Z.to_N z)).
Proof. intros H. unfold str_of_Z. destruct z; [easy|easy|lia]. Qed.

Lemma str_of_Z_length z w :
  (0 <= z < 10 ^ Z.of_nat w)%Z -> w <> 0 -> String.length (str_of_Z z) <= w.
Proof.
  intros [H0 H1] Hw. rewrite str_nonneg by easy.
  set (n := Z.to_N z). assert (Hn : (n < 10 ^ N.of_nat w)%N).
  { apply N2Z.inj_lt. subst n. rewrite Z2N.id, N2Z.inj_pow by easy. now rewrite nat_N_Z. }
  assert (Hd : N.of_uint (N.to_uint n) = n) by apply DecimalN.Unsigned.of_to.
  assert (Hu : Decimal.unorm (N.to_uint n) = N.to_uint n).
  { rewrite <- (DecimalN.Unsigned.to_of (N.to_uint n)). now rewrite Hd. }
  revert Hd Hu. generalize (N.to_uint n) as d. intros d Hd Hu.
  assert (Hl : lu_len d <= w).
  { destruct (Nat.le_gt_cases (lu_len d) 1); [lia|].
    pose proof (uint_lower d Hu H) as Hb. unfold N.of_uint in Hd. rewrite Hd in Hb.
    assert (N.of_nat (lu_len d - 1) < N.of_nat w)%N; [|lia].
    apply (N.pow_lt_mono_r_iff 10); lia. }
  unfold NilZero.string_of_uint. rewrite <- string_of_uint_length in Hl. destruct d; try exact Hl. cbn. lia.
Qed.

Lemma str_of_Z_digits z : (0 <= z)%Z -> digits_only (str_of_Z z).
Proof.
  intros H. rewrite str_nonneg by easy. unfold NilZero.string_of_uint.
  generalize (string_of_uint_digits (N.to_uint (Z.to_N z))). destruct (N.to_uint (Z.to_N z)); cbn; tauto.
Qed.

Lemma zfill_nonneg w s : digits_only s -> zfill w s = zeros (w - String.length s) s.
Proof.
  unfold zfill. destruct s as [|c s]; [easy|]. intros [Hc _].
  cbn in Hc. intuition subst; easy.
Qed.

Lemma zfill_str_length w z :
  w <> 0 -> (0 <= z < 10 ^ Z.of_nat w)%Z -> String.length (zfill w (str_of_Z z)) = w.
Proof.
  intros Hw Hz. rewrite zfill_nonneg by (apply str_of_Z_digits; lia).
  rewrite zeros_length. pose proof (str_of_Z_length z w Hz Hw). lia.
Qed.

Lemma zfill_str_digits w z : (0 <= z)%Z -> digits_only (zfill w (str_of_Z z)).
Proof.
  intros Hz. rewrite zfill_nonneg by (now apply str_of_Z_digits).
  apply zeros_digits. now apply str_of_Z_digits.
Qed.

Lemma string_app_length a b : String.length (a ++ b) = String.length a + String.length b.
Proof. induction a; cbn; auto. Qed.

Lemma string_app_inj_r a b c d :
  (a ++ c = b ++ d)%string -> String.length c = String.length d -> a = b /\ c = d.
Proof.
  revert b; induction a as [|x a IH]; intros [|y b] E Hl; cbn in E.
  - easy.
  - exfalso. subst c. cbn in Hl. rewrite string_app_length in Hl. lia.
  - exfalso. subst d. cbn in Hl. rewrite string_app_length in Hl. lia.
  - injection E as -> E. destruct (IH _ E Hl) as [-> ->]. easy.
Qed.

Definition good_entry (n w : nat) (e : Z * nat) : Prop :=
  (0 <= fst e < 10 ^ Z.of_nat w - 1)%Z /\ snd e < n.

Lemma pow10 w : Z.of_nat (10 ^ w) = (10 ^ Z.of_nat w)%Z.
Proof. now rewrite Nat2Z.inj_pow. Qed.

Lemma msisdn_pool_good n w : Forall (good_entry n w) (msisdn_pool n w).
Proof.
  apply Forall_forall. intros [z i] H. unfold msisdn_pool in H.
  apply in_flat_map in H as (j & Hj & H). apply in_map_iff in H as (k & [= <- <-] & Hk).
  apply in_seq in Hj. apply in_seq in Hk. split; cbn; [|lia].
  pose proof (pow10 w). lia.
Qed.

Lemma msisdn_pool_NoDup n w : NoDup (msisdn_pool n w).
Proof.
  unfold msisdn_pool. generalize (seq_NoDup n 0). generalize (seq 0 n). intros l Hl.
  induction Hl as [|i l Hi Hl IH]; cbn [flat_map]; [constructor|].
  apply NoDup_app_intro; [|easy|].
  - apply NoDup_map_inj; [|apply seq_NoDup]. intros a b _ _ [= E]. lia.
  - intros [z j] H1 H2. apply in_map_iff in H1 as (k & [= <- <-] & _).
    apply in_flat_map in H2 as (j & Hj & H2). apply in_map_iff in H2 as (k' & [= _ <-] & _). easy.
Qed.

Lemma msisdn_pool_length n w : length (msisdn_pool n w) = n * (10 ^ w - 1).
Proof.
  unfold msisdn_pool. set (m := 10 ^ w - 1). clearbody m.
  assert (H : forall l, length (flat_map (fun i : nat => map (fun k => (Z.of_nat k, i)) (seq 0 m)) l) = length l * m).
  { induction l as [|i l IH]; cbn [flat_map length]; [easy|].
    rewrite app_length, IH, map_length, seq_length. easy. }
  now rewrite H, seq_length.
Qed.

Lemma msisdn_str_inj cc prefixes w e1 e2 :
  NoDup prefixes -> w <> 0 -> good_entry (length prefixes) w e1 -> good_entry (length prefixes) w e2 ->
  msisdn_str cc prefixes w e1 = msisdn_str cc prefixes w e2 -> e1 = e2.
Proof.
  intros Hp Hw [Z1 I1] [Z2 I2] [= E]. apply string_app_inj_l in E.
  apply string_app_inj_r in E as [E1 E2].
  - destruct e1 as [z1 i1], e2 as [z2 i2]; cbn in *. apply zfill_str_inj in E2 as ->. f_equal.
    rewrite NoDup_nth in Hp. eapply Hp; eauto.
  - rewrite !zfill_str_length; lia.
Qed.

Lemma msisdn_calls cc prefixes w fresh : forall sizes calls avail vss g',
  heap_calls gen_step (GMsisdn cc prefixes w fresh calls avail) sizes = Ok (vss, g') ->
  exists picked avail' calls',
    vss = map (map (msisdn_str cc prefixes w)) picked /\
    map (fun l => Z.of_nat (length l)) picked = sizes /\
    g' = GMsisdn cc prefixes w fresh calls' avail' /\
    Permutation avail (concat picked ++ avail').
Proof.
  induction sizes as [|n sizes IH]; intros calls avail vss g' E; cbn [heap_calls] in E.
  - injection E as <- <-. exists [], avail, calls. easy.
  - apply bind_ok in E as ([vs g1] & E1 & E). apply bind_ok in E as ([vss' g2] & E2 & E).
    injection E as <- <-. cbn [gen_step] in E1.
    destruct (Z.ltb_spec n 0); [easy|].
    apply bind_ok in E1 as ([idx s] & H1 & E1). apply bind_ok in E1 as (ent & H2 & E1).
    injection E1 as <- <-.
    apply IH in E2 as (picked & avail' & calls' & -> & Hs & -> & Hp).
    exists (ent :: picked), avail', calls'. split; [easy|]. split; [|split; [easy|]].
    + cbn [map]. rewrite Hs. f_equal. apply take_length in H2. rewrite H2.
      apply choice_norep_spec in H1 as (_ & H1 & _). lia.
    + apply choice_norep_spec in H1 as (_ & _ & H1 & _).
      pose proof (perm_delete idx avail ent H1 H2) as Hq.
      etransitivity; [exact Hq|]. cbn [concat].
      rewrite Hp. rewrite Permutation_app_comm. now rewrite app_assoc.
Qed.

(** ** Statements used by PropGens.v *)

Lemma sequential_unique start prefix w sizes vss g' :
  Forall (fun n => 0 <= n)%Z sizes ->
  heap_calls gen_step (GSeq start prefix w) sizes = Ok (vss, g') ->
  map (@length val) vss = map Z.to_nat sizes /\
  NoDup (concat vss) /\
  forall k, k < length (concat vss) ->
    nth_error (concat vss) k = Some (VStr (prefix ++ zfill w (str_of_Z (start + Z.of_nat k)))).
Proof.
  intros Hs E. apply seq_calls_concat in E as (H1 & H2 & _); [|easy].
  split; [easy|]. rewrite H2. split; [apply seq_ids_NoDup|].
  intros k Hk. rewrite map_length, build_ids_length in Hk.
  rewrite nth_error_map, nth_error_build_ids by easy. easy.
Qed.

Lemma msisdn_unique cc prefixes w fresh sizes vss g' :
  NoDup prefixes -> w <> 0 ->
  heap_calls gen_step (new_msisdn cc prefixes w fresh) sizes = Ok (vss, g') ->
  map (fun l => Z.of_nat (length l)) vss = sizes /\ NoDup (concat vss) /\
  forall v, In v (concat vss) ->
    exists p digits, v = VStr (cc ++ p ++ digits) /\ In p prefixes /\
      String.length digits = w /\ digits_only digits.
Proof.
  intros Hp Hw E. apply msisdn_calls in E as (picked & avail' & c & -> & Hs & _ & Hq).
  split; [|split].
  - rewrite map_map. rewrite <- Hs. apply map_ext. intros l. now rewrite map_length.
  - rewrite <- concat_map. apply NoDup_map_inj.
    + intros a b Ha Hb. apply msisdn_str_inj; auto.
      * eapply Forall_forall; [apply msisdn_pool_good|]. eapply Permutation_in; [symmetry; eauto|].
        apply in_or_app; now left.
      * eapply Forall_forall; [apply msisdn_pool_good|]. eapply Permutation_in; [symmetry; eauto|].
        apply in_or_app; now left.
    + eapply NoDup_app_l. eapply Permutation_NoDup; [exact Hq|apply msisdn_pool_NoDup].
  - intros v Hv. rewrite <- concat_map in Hv. apply in_map_iff in Hv as (e & <- & He).
    assert (G : good_entry (length prefixes) w e).
    { eapply Forall_forall; [apply msisdn_pool_good|]. eapply Permutation_in; [symmetry; eauto|].
      apply in_or_app; now left. }
    destruct G as [G1 G2].
    exists (nth (snd e) prefixes ""%string), (zfill w (str_of_Z (fst e))).
    split; [easy|]. split; [now apply nth_In|].
    split; [apply zfill_str_length; lia|apply zfill_str_digits; lia].
Qed.

Lemma msisdn_exhausted cc prefixes w fresh sizes vss g' n :
  heap_calls gen_step (new_msisdn cc prefixes w fresh) sizes = Ok (vss, g') ->
  (0 <= n)%Z ->
  let remaining := (Z.of_nat (length prefixes) * (10 ^ Z.of_nat w - 1) - zsum sizes)%Z in
  if (remaining <? n)%Z then gen_step g' n = Err ValueError else is_ok (gen_step g' n) = true.
Proof.
  intros E Hn remaining. apply msisdn_calls in E as (picked & avail' & c & -> & Hs & -> & Hq).
  assert (Hr : Z.of_nat (length avail') = remaining).
  { apply Permutation_length in Hq. rewrite msisdn_pool_length, app_length in Hq.
    assert (Hc : Z.of_nat (length (concat picked)) = zsum sizes).
    { subst sizes. clear. induction picked as [|l picked IH]; cbn [concat map zsum length]; [easy|].
      rewrite app_length. lia. }
    unfold remaining. pose proof (pow10 w) as Hw.
    assert (10 ^ w <> 0) by (apply Nat.pow_nonzero; lia).
    assert (Z.of_nat (length prefixes * (10 ^ w - 1)) =
            (Z.of_nat (length prefixes) * (10 ^ Z.of_nat w - 1))%Z) as Hm.
    { rewrite Nat2Z.inj_mul. f_equal. lia. }
    lia. }
  cbn [gen_step]. destruct (Z.ltb_spec n 0); [lia|].
  destruct (Z.ltb_spec remaining n) as [Hlt|Hge].
  - unfold choice_norep. destruct (Nat.ltb_spec (length avail') (Z.to_nat n)); [easy|lia].
  - destruct (choice_norep_ok (length avail') (Z.to_nat n) (fresh c)) as (xs & r' & Ec); [lia|].
    rewrite Ec. cbn [bind]. apply choice_norep_spec in Ec as (_ & _ & _ & Hf).
    destruct (take_ok xs avail') as (l & El); [easy|]. now rewrite El.
Qed.

Lemma msisdn_never_nines cc prefixes w fresh sizes vss g' v :
  w <> 0 ->
  heap_calls gen_step (new_msisdn cc prefixes w fresh) sizes = Ok (vss, g') ->
  In v (concat vss) ->
  forall p, In p prefixes -> NoDup prefixes ->
  v <> VStr (cc ++ p ++ str_of_Z (10 ^ Z.of_nat w - 1)).
Proof.
  intros Hw E Hv p Hp Hd Heq. apply msisdn_calls in E as (picked & avail' & c & -> & Hs & _ & Hq).
  rewrite <- concat_map in Hv. apply in_map_iff in Hv as (e & <- & He).
  assert (G : good_entry (length prefixes) w e).
  { eapply Forall_forall; [apply msisdn_pool_good|]. eapply Permutation_in; [symmetry; eauto|].
    apply in_or_app; now left. }
  destruct G as [G1 G2]. injection Heq as Heq. apply string_app_inj_l in Heq.
  assert (Hr : (0 <= 10 ^ Z.of_nat w - 1 < 10 ^ Z.of_nat w)%Z).
  { pose proof (pow10 w). assert (10 ^ w <> 0) by (apply Nat.pow_nonzero; lia). lia. }
  assert (Hz : str_of_Z (10 ^ Z.of_nat w - 1) = zfill w (str_of_Z (10 ^ Z.of_nat w - 1))).
  { rewrite zfill_nonneg by (apply str_of_Z_digits; lia).
    replace (w - _) with 0; [easy|].
    enough (w <= String.length (str_of_Z (10 ^ Z.of_nat w - 1))) by lia.
    clear - Hw Hr. destruct (Nat.le_gt_cases w (String.length (str_of_Z (10 ^ Z.of_nat w - 1)))) as [|Hlt]; [easy|].
    exfalso. set (m := String.length _) in *.
    (* a rendering of length m < w stands for a number < 10^m *)
    assert (B : (10 ^ Z.of_nat w - 1 < 10 ^ Z.of_nat m)%Z).
    { subst m. rewrite str_nonneg by lia. set (n := Z.to_N _).
      assert (Hn : Z.of_N n = (10 ^ Z.of_nat w - 1)%Z) by (subst n; apply Z2N.id; lia).
      rewrite <- Hn. clearbody n.
      assert (U : forall d, (Pos.of_uint d < 10 ^ N.of_nat (lu_len d))%N).
      { intros d. rewrite <- (rev_rev d), Unsigned.of_lu_rev.
        assert (L : forall a b, lu_len (Decimal.revapp a b) = lu_len a + lu_len b).
        { induction a; intros b; cbn; rewrite ?IHa; cbn; lia. }
        replace (lu_len (Decimal.rev (Decimal.rev d))) with (lu_len (Decimal.rev d)).
        2:{ unfold Decimal.rev. rewrite !L. cbn. lia. }
        generalize (Decimal.rev d) as e. clear.
        induction e; cbn [Unsigned.of_lu lu_len]; rewrite ?Nnat.Nat2N.inj_succ, ?N.pow_succ_r'; try lia.
        all: cbn; lia. }
      rewrite <- (DecimalN.Unsigned.of_to n). unfold N.of_uint.
      specialize (U (N.to_uint n)). rewrite DecimalN.Unsigned.of_to.
      assert (Hl : lu_len (N.to_uint n) <= String.length (NilZero.string_of_uint (N.to_uint n))).
      { unfold NilZero.string_of_uint. rewrite <- string_of_uint_length. destruct (N.to_uint n); cbn; lia. }
      apply N2Z.inj_lt in U. rewrite N2Z.inj_pow, nat_N_Z in U.
      change (Pos.of_uint (N.to_uint n)) with (N.of_uint (N.to_uint n)) in U. rewrite DecimalN.Unsigned.of_to in U.
      eapply Z.lt_le_trans; [exact U|]. apply Z.pow_le_mono_r; lia. }
    assert (10 ^ Z.of_nat w >= 10 * 10 ^ Z.of_nat m)%Z.
    { replace (Z.of_nat w) with (Z.of_nat m + 1 + (Z.of_nat w - Z.of_nat m - 1))%Z by lia.
      rewrite !Z.pow_add_r by lia.
      assert (0 < 10 ^ Z.of_nat m)%Z by (apply Z.pow_pos_nonneg; lia).
      assert (1 <= 10 ^ (Z.of_nat w - Z.of_nat m - 1))%Z.
      { assert (0 < 10 ^ (Z.of_nat w - Z.of_nat m - 1))%Z by (apply Z.pow_pos_nonneg; lia). lia. }
      nia. }
    assert (0 < 10 ^ Z.of_nat m)%Z by (apply Z.pow_pos_nonneg; lia). lia. }
  rewrite Hz in Heq. apply string_app_inj_r in Heq as [_ E2].
  - apply zfill_str_inj in E2. lia.
  - rewrite !zfill_str_length; lia.
Qed.

Lemma trigger_certain h proba st obs vs d' h' :
  dgen_generate h (DTrigger proba st) obs = Ok (vs, d', h') ->
  h' = h /\ length vs = length obs /\
  forall k o, nth_error obs k = Some o ->
    exists b p, nth_error vs k = Some (VBool b) /\ proba o = Ok p /\
      ((1 <= p)%Q -> b = true) /\ ((p <= 0)%Q -> b = false).
Proof.
  cbn [dgen_generate]. destruct (draws uniform (length obs) st) as [us st'] eqn:Ed.
  intros E. apply bind_ok in E as (ps & Hp & E). injection E as <- <- <-.
  pose proof (draws_length _ _ _ _ _ Ed) as Hl. apply mapr_ok_length in Hp as Hpl.
  split; [easy|]. split; [rewrite map_length, combine_length; lia|].
  intros k o Hk.
  assert (Hu : Forall (fun u => 0 <= u /\ u < 1)%Q us).
  { eapply draws_Forall; [|exact Ed]. intros r u r' Hur. eapply uniform_range; eauto. }
  apply mapr_ok_Forall2 in Hp.
  assert (Hkl : k < length obs) by (apply nth_error_Some; congruence).
  destruct (nth_error us k) as [u|] eqn:Eu; [|apply nth_error_None in Eu; lia].
  destruct (nth_error ps k) as [p|] eqn:Ep; [|apply nth_error_None in Ep; lia].
  exists (Qltb u p), p.
  assert (Ec : nth_error (combine us ps) k = Some (u, p)).
  { clear - Eu Ep. revert us ps Eu Ep. induction k as [|k IH]; intros [|x us] [|y ps] Eu Ep; cbn in *; try easy.
    - congruence.
    - auto. }
  rewrite nth_error_map, Ec. split; [easy|].
  rewrite Forall_forall in Hu. specialize (Hu u (nth_error_In _ _ Eu)) as [U0 U1].
  split; [|split].
  - clear - Hp Hk Ep. revert k Hk Ep. induction Hp as [|x y l l' Hx _ IH]; intros [|k] Hk Ep; cbn in *; try easy.
    + congruence.
    + eauto.
  - intros H1. apply Qltb_lt. eapply Qlt_le_trans; eauto.
  - intros H1. apply Qltb_nlt. eapply Qle_trans; eauto.
Qed.

Lemma quantities_partition h i n qs vs h' :
  Forall elementwise h ->
  random_values h i n (Some qs) = Ok (vs, h') ->
  exists ns lists flat,
    qs = map vnat ns /\ vs = map VList lists /\
    map (@length val) lists = ns /\ concat lists = flat /\
    gen_generate h i (Z.of_nat (nsum ns)) = Ok (flat, h').
Proof.
  intros Hh E. cbn [random_values] in E.
  apply bind_ok in E as (zs & Hz & E). apply bind_ok in E as ([flat h1] & Hg & E).
  destruct (existsb _ zs) eqn:Ee; [easy|]. injection E as <- <-.
  assert (Hnn : Forall (fun z => 0 <= z)%Z zs).
  { apply Forall_forall. intros z Hin. destruct (Z.ltb_spec z 0) as [Hlt|]; [|easy].
    assert (existsb (fun n => n <? 0)%Z zs = true); [|congruence].
    apply existsb_exists. exists z. split; [easy|]. now apply Z.ltb_lt. }
  assert (Hsum : zsum zs = Z.of_nat (nsum (map Z.to_nat zs))).
  { clear - Hnn. induction Hnn; cbn [zsum map nsum]; lia. }
  exists (map Z.to_nat zs), (slices (map Z.to_nat zs) flat), flat.
  rewrite Hsum in Hg.
  assert (Hl : length flat = nsum (map Z.to_nat zs)).
  { apply heap_generate_length in Hg; [lia|lia|easy]. }
  split; [|split; [easy|split; [|split]]].
  - apply mapr_ok_Forall2 in Hz. clear - Hz Hnn. induction Hz as [|v z l l' Hv _ IH]; cbn [map]; [easy|].
    apply Forall_cons_iff in Hnn as [Hz Hnn]. rewrite <- IH by easy. f_equal.
    destruct v; try easy. cbn in Hv. destruct q as [[a b] Hc]. cbn in Hv.
    destruct b; try easy. injection Hv as ->. unfold vnat, vz. f_equal. apply Qc_is_canon.
    rewrite Z2Nat.id by easy. unfold Q2Qc, this. rewrite Qred_correct. reflexivity.
  - rewrite slices_lengths; [easy|lia].
  - apply slices_concat. lia.
  - exact Hg.
Qed.

Lemma trunc_ge q z : (inject_Z z <= q)%Q -> (0 <= z)%Z -> (z <= trunc_Q q)%Z.
Proof.
  intros H Hz. unfold trunc_Q. destruct q as [a b]. cbn. unfold Qle in H. cbn in H.
  rewrite Z.quot_div_nonneg by nia. apply Z.div_le_lower_bound; nia.
Qed.

Lemma pareto_lower xmin lomax state size vs g' force_int :
  (0 <= xmin)%Qc -> (forall x, 0 <= lomax x)%Qc ->
  gen_step (GPareto xmin force_int lomax state) size = Ok (vs, g') ->
  forall v, In v vs -> exists q, v = VNum q /\
    if force_int then (forall z, (0 <= z)%Z -> (inject_Z z <= xmin)%Q -> (inject_Z z <= q)%Q) else (xmin <= q)%Qc.
Proof.
  intros Hx Hl E v Hv. cbn [gen_step] in E. destruct (size <? 0)%Z; [easy|].
  destruct (draws next_raw _ state) as [xs st]. injection E as <- <-.
  apply in_map_iff in Hv as (y & <- & Hy). apply in_map_iff in Hy as (x & <- & _).
  assert (Hq : (xmin <= (lomax x + 1) * xmin)%Qc).
  { rewrite <- (Qcmult_1_l xmin) at 1. apply Qcmult_le_compat_r; [|easy].
    rewrite <- (Qcplus_0_l 1) at 1. apply Qcplus_le_compat; [apply Hl|apply Qcle_refl]. }
  destruct force_int.
  - exists (Q2Qc (inject_Z (trunc_Q (this ((lomax x + 1) * xmin)%Qc)))). split; [easy|].
    intros z Hz Hzx. cbn [this Q2Qc]. rewrite Qred_correct. rewrite <- Zle_Qle.
    apply trunc_ge; [|easy]. eapply Qle_trans; [exact Hzx|exact Hq].
  - eexists. split; [reflexivity|]. easy.
Qed.

Lemma next_seed_range st : (1 <= fst (next_seed st) < max_int_32)%N.
Proof.
  unfold next_seed. cbn [next_raw fst]. assert (Hm : (max_int_32 - 1 <> 0)%N) by discriminate.
  pose proof (N.mod_upper_bound (tape st (pos st)) (max_int_32 - 1) Hm) as H.
  revert H. generalize (tape st (pos st) mod (max_int_32 - 1))%N. intros x H.
  unfold max_int_32 in *. lia.
Qed.

(** map(f) gives exactly the images of what the parent would give, in order, and advances the
    parent just as the parent's own generate does. *)
Lemma map_images h i parent f size vs h' :
  nth_error h i = Some (GMap parent (MapElem f)) -> parent < i ->
  (gen_generate h i size = Ok (vs, h') <->
   exists samples, heap_generate i h parent size = Ok (samples, h') /\ mapr f samples = Ok vs).
Proof.
  intros Hi Hp. unfold gen_generate. cbn [heap_generate]. rewrite Hi.
  apply Nat.ltb_lt in Hp. rewrite Hp. split.
  - intros E. apply bind_ok in E as ([s h1] & E1 & E). apply bind_ok in E as (x & E2 & E).
    injection E as <- <-. eauto.
  - intros (s & E1 & E2). rewrite E1. cbn [bind]. now rewrite E2.
Qed.

(** the recursion bound is irrelevant *)
Lemma heap_generate_fuel fuel : forall h i size,
  i < fuel -> heap_generate fuel h i size = heap_generate (S i) h i size.
Proof.
  enough (H : forall f1 f2 h i size, i < f1 -> i < f2 -> heap_generate f1 h i size = heap_generate f2 h i size)
    by (intros; apply H; lia).
  induction f1 as [|f1 IH]; intros f2 h i size H1 H2; [lia|]. destruct f2 as [|f2]; [lia|].
  cbn [heap_generate]. destruct (nth_error h i) as [g|]; [|easy]. destruct g; try easy.
  - destruct (Nat.ltb_spec parent i); [|easy]. rewrite (IH f2 h parent) by lia. easy.
  - destruct (Nat.ltb_spec parent i); [|easy]. destruct (Nat.ltb_spec elem i); [|easy]. cbn [andb].
    rewrite (IH f2 h parent) by lia.
    destruct (heap_generate f2 h parent size) as [[s h1]|]; [|easy]. cbn [bind].
    destruct (mapr as_int s) as [ns|]; [|easy]. cbn [bind].
    assert (C : forall ns h, heap_calls (fun h n => heap_generate f1 h elem n) h ns =
                             heap_calls (fun h n => heap_generate f2 h elem n) h ns).
    { clear ns. induction ns as [|n ns IHn]; intros h0; cbn [heap_calls]; [easy|].
      rewrite (IH f2 h0 elem) by lia. destruct (heap_generate f2 h0 elem n) as [[v h2]|]; [|easy].
      cbn [bind]. now rewrite IHn. }
    now rewrite C.
Qed.

Lemma map_images_parent h i parent f size vs h' :
  nth_error h i = Some (GMap parent (MapElem f)) -> parent < i ->
  (gen_generate h i size = Ok (vs, h') <->
   exists samples, gen_generate h parent size = Ok (samples, h') /\ mapr f samples = Ok vs).
Proof.
  intros Hi Hp. rewrite (map_images h i parent f size vs h' Hi Hp).
  unfold gen_generate. now rewrite (heap_generate_fuel i h parent size Hp).
Qed.
