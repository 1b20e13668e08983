(** Facts on weighted random choices. *)
From Coq Require Import Qround Qabs.
From Verif Require Import Base BaseFacts Rng RngFacts SpecRandom.
From Coq Require Import Lqa.

(** ** Counting integers *)

Lemma number_of_ext (P P' : Z -> Prop) n : (forall k, P k <-> P' k) -> number_of P n -> number_of P' n.
Proof. intros H (l & N & I & E). exists l. split; [exact N|]. split; [|exact E]. intros k. now rewrite I. Qed.

Lemma number_of_unique P n m : number_of P n -> number_of P m -> n = m.
Proof.
  intros (l & N & I & <-) (l' & N' & I' & <-). f_equal.
  apply Permutation_length, NoDup_Permutation; [exact N|exact N'|]. intros k. now rewrite I, I'.
Qed.

Lemma number_of_none (P : Z -> Prop) : (forall k, ~ P k) -> number_of P 0.
Proof. intros H. exists []. split; [constructor|]. split; [|reflexivity]. intros k. cbn. split; [easy|apply H]. Qed.

Lemma number_of_sum (P P' : Z -> Prop) n m : (forall k, P k -> P' k -> False) ->
  number_of P n -> number_of P' m -> number_of (fun k => P k \/ P' k) (n + m).
Proof.
  intros D (l & N & I & <-) (l' & N' & I' & <-). exists (l ++ l'). split; [|split].
  - clear - D N N' I I'. assert (G : forall k, In k l -> ~ In k l').
    { intros k A B. apply (D k); [now apply I|now apply I']. }
    clear I I' D. induction N as [|x l Hx N IH]; cbn; [exact N'|]. constructor.
    + rewrite in_app_iff. intros [A|A]; [auto|]. apply (G x); [now left|exact A].
    + apply IH. intros k A. apply G. now right.
  - intros k. rewrite in_app_iff, I, I'. reflexivity.
  - rewrite app_length. lia.
Qed.

Lemma number_of_interval a b : (a <= b)%Z -> number_of (fun k => (a <= k < b)%Z) (b - a).
Proof.
  intros H. exists (map (fun n => a + Z.of_nat n)%Z (seq 0 (Z.to_nat (b - a)))). split; [|split].
  - apply FinFun.Injective_map_NoDup; [|apply seq_NoDup]. intros x y E. lia.
  - intros k. rewrite in_map_iff. split.
    + intros (n & <- & Hn). apply in_seq in Hn. lia.
    + intros Hk. exists (Z.to_nat (k - a)). split; [lia|]. apply in_seq. lia.
  - rewrite map_length, seq_length. lia.
Qed.

(** ** Numbers below a threshold *)

Lemma below_iff k (d : positive) p : (k # d < p)%Q <-> (k < Qceiling (p * inject_Z (Zpos d)))%Z.
Proof.
  assert (E : ((k # d) < p)%Q <-> (inject_Z k < p * inject_Z (Zpos d))%Q).
  { unfold Qlt. cbn. rewrite ?Z.mul_1_r, ?Pos.mul_1_r. split; intros H; nia. }
  rewrite E. split; intros H.
  - pose proof (Qle_ceiling (p * inject_Z (Zpos d))) as C.
    rewrite Zlt_Qlt. lra.
  - pose proof (Qceiling_lt (p * inject_Z (Zpos d))) as C.
    assert (inject_Z k <= inject_Z (Qceiling (p * inject_Z (Zpos d)) - 1))%Q by (rewrite <- Zle_Qle; lia).
    lra.
Qed.

Lemma ceiling_bounds q : (q <= inject_Z (Qceiling q) /\ inject_Z (Qceiling q) < q + 1)%Q.
Proof.
  split; [apply Qle_ceiling|]. pose proof (Qceiling_lt q) as H.
  unfold Z.sub in H. rewrite inject_Z_plus in H. change (inject_Z (- (1))) with (- (1))%Q in H. lra.
Qed.

Definition N53 : Q := inject_Z (Zpos two53).

Lemma Qceiling_int_le q z : (q <= inject_Z z)%Q -> (Qceiling q <= z)%Z.
Proof. intros H. rewrite <- (Qceiling_Z z). now apply Qceiling_resp_le. Qed.

(** the numbers of [a, b), 0 <= a <= b <= 1 *)
Lemma chances_interval a b : (0 <= a)%Q -> (a <= b)%Q -> (b <= 1)%Q ->
  exists n, chances (fun u => a <= u /\ u < b)%Q n /\ (Qabs (inject_Z n - N53 * (b - a)) < 1)%Q.
Proof.
  intros Ha Hab Hb. set (ca := Qceiling (a * N53)). set (cb := Qceiling (b * N53)).
  assert (Hpos : (0 < N53)%Q) by (unfold N53; change 0%Q with (inject_Z 0); rewrite <- Zlt_Qlt; lia).
  assert (Hle : (ca <= cb)%Z).
  { apply Qceiling_resp_le. apply Qmult_le_compat_r; lra. }
  assert (H0 : (0 <= ca)%Z).
  { rewrite <- (Qceiling_Z 0). apply Qceiling_resp_le. change (inject_Z 0) with 0%Q. apply Qmult_le_0_compat; lra. }
  assert (H1 : (cb <= Zpos two53)%Z).
  { apply Qceiling_int_le. fold N53. setoid_replace N53 with (1 * N53)%Q at 2 by ring. apply Qmult_le_compat_r; lra. }
  exists (cb - ca)%Z. split.
  - unfold chances. eapply number_of_ext; [|apply (number_of_interval ca cb Hle)].
    intros k. rewrite (below_iff k two53 b). fold N53 cb.
    assert (E : (a <= k # two53)%Q <-> (ca <= k)%Z).
    { split; intros H.
      - apply Z.nlt_ge. intros C. apply (proj2 (below_iff k two53 a)) in C. lra.
      - apply Qnot_lt_le. intros C. apply below_iff in C. fold N53 ca in C. lia. }
    rewrite E. lia.
  - pose proof (ceiling_bounds (a * N53)) as [A1 A2]. pose proof (ceiling_bounds (b * N53)) as [B1 B2].
    fold ca in A1, A2. fold cb in B1, B2. unfold Z.sub. rewrite inject_Z_plus, inject_Z_opp.
    apply Qabs_Qlt_condition. split; lra.
Qed.

Lemma chances_ext (P P' : Q -> Prop) n : (forall u, (0 <= u)%Q -> (u < 1)%Q -> P u <-> P' u) -> chances P n -> chances P' n.
Proof.
  intros H. apply number_of_ext. intros k. split; intros [K U]; split; try exact K; apply H; try exact U;
    unfold Qle, Qlt; cbn [Qnum Qden]; generalize dependent two53; intros; lia.
Qed.

Lemma chances_below p : (0 <= p)%Q -> (p <= 1)%Q ->
  exists n, chances (fun u => u < p)%Q n /\ (Qabs (inject_Z n - N53 * p) < 1)%Q.
Proof.
  intros H0 H1. destruct (chances_interval 0 p) as (n & C & B); [lra|exact H0|exact H1|].
  exists n. split.
  - eapply chances_ext; [|exact C]. intros u U0 _. cbv beta. intuition.
  - setoid_replace (inject_Z n - N53 * p)%Q with (inject_Z n - N53 * (p - 0))%Q by ring. exact B.
Qed.

(** ** Designation *)

Lemma firstn_S_app {A} i (l : list A) x : nth_error l i = Some x -> firstn (S i) l = firstn i l ++ [x].
Proof.
  revert i. induction l as [|y l IH]; intros [|i] H; cbn in *; try discriminate.
  - now injection H as ->.
  - f_equal. now apply IH.
Qed.

Lemma qsum_app a b : (qsum (a ++ b) == qsum a + qsum b)%Q.
Proof. induction a as [|x a IH]; cbn; [ring|]. rewrite IH. ring. Qed.

Lemma qsum_pos_le ws : (forall w, In w ws -> (0 <= w)%Q) -> (0 <= qsum ws)%Q.
Proof.
  induction ws as [|w ws IH]; cbn; intros H; [lra|].
  assert (0 <= w)%Q by auto. assert (0 <= qsum ws)%Q by auto. lra.
Qed.

Lemma In_firstn' {A} n (l : list A) x : In x (firstn n l) -> In x l.
Proof. apply In_firstn. Qed.

Lemma In_skipn' {A} n (l : list A) x : In x (skipn n l) -> In x l.
Proof. intros H. rewrite <- (firstn_skipn n l). apply in_or_app. now right. Qed.

Lemma qsum_firstn_le ws i : (forall w, In w ws -> (0 <= w)%Q) -> (qsum (firstn i ws) <= qsum ws)%Q.
Proof.
  intros H. pose proof (qsum_app (firstn i ws) (skipn i ws)) as E. rewrite firstn_skipn in E.
  pose proof (qsum_pos_le (skipn i ws)) as P. rewrite E.
  assert (0 <= qsum (skipn i ws))%Q; [|lra]. apply P. intros w Hw. apply H. eapply In_skipn'; eauto.
Qed.

Lemma qsum_firstn_mono ws i j : (forall w, In w ws -> (0 <= w)%Q) -> i <= j ->
  (qsum (firstn i ws) <= qsum (firstn j ws))%Q.
Proof.
  intros H Hij. replace (firstn i ws) with (firstn i (firstn j ws)) by (rewrite firstn_firstn; f_equal; lia).
  apply qsum_firstn_le. intros w Hw. apply H. eapply In_firstn'; eauto.
Qed.

Lemma designates_unique ws u i j : proper_weights ws -> designates ws u i -> designates ws u j -> i = j.
Proof.
  intros [Hp _] [A1 A2] [B1 B2]. destruct (Nat.lt_trichotomy i j) as [L|[E|L]]; [|exact E|].
  - pose proof (qsum_firstn_mono ws (S i) j Hp L). lra.
  - pose proof (qsum_firstn_mono ws (S j) i Hp L). lra.
Qed.

Lemma designates_lt ws u i : designates ws u i -> i < length ws.
Proof.
  intros [A B]. destruct (Nat.lt_ge_cases i (length ws)) as [L|L]; [exact L|exfalso].
  rewrite !firstn_all2 in * by lia. lra.
Qed.

Lemma designates_exists ws u : proper_weights ws -> (0 <= u)%Q -> (u < 1)%Q -> exists i, designates ws u i.
Proof.
  intros [Hp Hs] U0 U1. set (x := (u * qsum ws)%Q).
  assert (X0 : (0 <= x)%Q) by (apply Qmult_le_0_compat; lra).
  assert (X1 : (x < qsum ws)%Q).
  { unfold x. setoid_replace (qsum ws) with (1 * qsum ws)%Q at 2 by ring. apply Qmult_lt_r; lra. }
  assert (G : forall n, n <= length ws -> (x < qsum (firstn n ws))%Q -> exists i, (qsum (firstn i ws) <= x)%Q /\ (x < qsum (firstn (S i) ws))%Q).
  { induction n as [|n IH]; intros Hn Hx; [cbn in Hx; lra|].
    destruct (Qlt_le_dec x (qsum (firstn n ws))) as [L|L]; [apply IH; [lia|exact L]|].
    exists n. split; assumption. }
  apply (G (length ws)); [lia|]. now rewrite firstn_all.
Qed.

Lemma div_le_iff x s u : (0 < s)%Q -> (x / s <= u <-> x <= u * s)%Q.
Proof.
  intros Hs. rewrite <- (Qmult_le_r (x / s) u s Hs).
  setoid_replace (x / s * s)%Q with x by (field; lra). reflexivity.
Qed.

Lemma div_lt_iff x s u : (0 < s)%Q -> (u < x / s <-> u * s < x)%Q.
Proof.
  intros Hs. rewrite <- (Qmult_lt_r u (x / s) s Hs).
  setoid_replace (x / s * s)%Q with x by (field; lra). reflexivity.
Qed.

Lemma designates_chances ws i w : proper_weights ws -> nth_error ws i = Some w ->
  exists n, chances (fun u => designates ws u i) n /\ (Qabs (inject_Z n - N53 * (w / qsum ws)) < 1)%Q.
Proof.
  intros [Hp Hs] Hi. pose proof (qsum_app (firstn i ws) [w]) as Eapp.
  rewrite <- (firstn_S_app _ _ _ Hi) in Eapp. cbn [qsum] in Eapp.
  assert (Hnz : ~ (qsum ws == 0)%Q) by (intros C; rewrite C in Hs; lra).
  set (a := (qsum (firstn i ws) / qsum ws)%Q). set (b := (qsum (firstn (S i) ws) / qsum ws)%Q).
  assert (P0 : (0 <= qsum (firstn i ws))%Q)
    by (apply qsum_pos_le; intros x Hx; apply Hp; eapply In_firstn'; eauto).
  assert (Hw : (0 <= w)%Q) by (apply Hp; eapply nth_error_In; eauto).
  pose proof (qsum_firstn_le ws (S i) Hp) as P1.
  destruct (chances_interval a b) as (n & C & B).
  - unfold a. apply Qle_shift_div_l; [exact Hs|]. lra.
  - unfold a, b. unfold Qdiv. apply Qmult_le_compat_r; [lra|]. apply Qlt_le_weak, Qinv_lt_0_compat, Hs.
  - unfold b. apply Qle_shift_div_r; [exact Hs|]. lra.
  - exists n. split.
    + eapply chances_ext; [|exact C]. intros u _ _. cbv beta. unfold designates, a, b.
      now rewrite div_le_iff, div_lt_iff by exact Hs.
    + setoid_replace (N53 * (w / qsum ws))%Q with (N53 * (b - a))%Q; [exact B|].
      unfold a, b. rewrite Eapp. field. exact Hnz.
Qed.

(** ** Entries of a weighted list *)

Lemma weight_of_app t a b : (weight_of t (a ++ b) == weight_of t a + weight_of t b)%Q.
Proof.
  induction a as [|[t' w] a IH]; cbn [weight_of app]; [ring|]. destruct (keqb t t'); rewrite IH; ring.
Qed.

Lemma entries_of_app t a b : entries_of t (a ++ b) = (entries_of t a + entries_of t b)%Z.
Proof. induction a as [|[t' w] a IH]; cbn [entries_of app]; [reflexivity|]. destruct (keqb t t'); rewrite IH; lia. Qed.

Lemma Qabs_plus_le a b x y : (Qabs a <= x)%Q -> (Qabs b <= y)%Q -> (Qabs (a + b) <= x + y)%Q.
Proof. intros A B. pose proof (Qabs_triangle a b). lra. Qed.

Lemma selects_chances l t : proper_weights (map snd l) ->
  exists n, chances (fun u => selects l u t) n /\
    (Qabs (inject_Z n - N53 * (weight_of t l / qsum (map snd l))) <= inject_Z (entries_of t l))%Q.
Proof.
  intros Hp. set (ws := map snd l). fold ws in Hp.
  assert (Hnz : ~ (qsum ws == 0)%Q) by (destruct Hp as [_ Hp]; intros C; rewrite C in Hp; lra).
  assert (G : forall m, m <= length l ->
    exists n, chances (fun u => exists i, i < m /\ designates ws u i /\ nth_error (map fst l) i = Some t) n /\
      (Qabs (inject_Z n - N53 * (weight_of t (firstn m l) / qsum ws)) <= inject_Z (entries_of t (firstn m l)))%Q).
  { induction m as [|m IH]; intros Hm.
    - exists 0%Z. split.
      + apply number_of_none. intros k (_ & i & Hi & _). lia.
      + cbn [firstn weight_of entries_of]. setoid_replace (inject_Z 0 - N53 * (0 / qsum ws))%Q with 0%Q.
        * cbn. apply Qle_refl.
        * change (inject_Z 0) with 0%Q. field. exact Hnz.
    - destruct (IH ltac:(lia)) as (n & C & B). clear IH.
      destruct (nth_error l m) as [[t' w]|] eqn:Em; [|apply nth_error_None in Em; lia].
      rewrite (firstn_S_app _ _ _ Em).
      assert (Ew : nth_error ws m = Some w) by (unfold ws; now rewrite nth_error_map, Em).
      assert (Et : nth_error (map fst l) m = Some t') by now rewrite nth_error_map, Em.
      destruct (keqb_spec t t') as [->|Hne].
      + destruct (designates_chances ws m w Hp Ew) as (n' & C' & B').
        exists (n + n')%Z. split.
        * eapply number_of_ext; [|apply number_of_sum; [|exact C|exact C']].
          -- intros k. cbv beta. split.
             ++ intros [(K & i & Hi & D & T)|(K & D)]; (split; [exact K|]).
                ** exists i. split; [lia|]. auto.
                ** exists m. split; [lia|]. auto.
             ++ intros (K & i & Hi & D & T). destruct (Nat.eq_dec i m) as [->|N]; [right; auto|].
                left. split; [exact K|]. exists i. split; [lia|]. auto.
          -- cbv beta. intros k (_ & i & Hi & D & _) (_ & D'). pose proof (designates_unique _ _ _ _ Hp D D'). lia.
        * rewrite entries_of_app. cbn [entries_of]. rewrite keqb_refl. rewrite !inject_Z_plus.
          setoid_replace (inject_Z n + inject_Z n' - N53 * (weight_of t' (firstn m l ++ [(t', w)]) / qsum ws))%Q
            with ((inject_Z n - N53 * (weight_of t' (firstn m l) / qsum ws)) + (inject_Z n' - N53 * (w / qsum ws)))%Q.
          -- apply Qabs_plus_le; [exact B|]. change (inject_Z 1 + inject_Z 0)%Q with 1%Q. lra.
          -- rewrite weight_of_app. cbn [weight_of]. rewrite keqb_refl. field. exact Hnz.
      + exists n. split.
        * eapply number_of_ext; [|exact C]. intros k. cbv beta. split.
          -- intros (K & i & Hi & D & T). split; [exact K|]. exists i. split; [lia|]. auto.
          -- intros (K & i & Hi & D & T). split; [exact K|]. exists i. split; [|auto].
             destruct (Nat.eq_dec i m) as [->|N]; [congruence|lia].
        * rewrite entries_of_app. cbn [entries_of]. destruct (keqb_spec t t') as [->|_]; [easy|]. rewrite Z.add_0_r.
          setoid_replace (weight_of t (firstn m l ++ [(t', w)])) with (weight_of t (firstn m l)); [exact B|].
          rewrite weight_of_app. cbn [weight_of]. destruct (keqb_spec t t'); [easy|]. ring. }
  destruct (G (length l) (le_n _)) as (n & C & B). rewrite firstn_all in B. exists n. split; [|exact B].
  eapply number_of_ext; [|exact C]. intros k. cbv beta. split; intros (K & i & H); (split; [exact K|]).
  - exists i. tauto.
  - exists i. split; [|exact H]. destruct H as [_ H]. rewrite <- (map_length fst). apply nth_error_Some. congruence.
Qed.

(** ** Draws read consecutive numbers *)

Lemma draws_cells {A} (f : rng -> A * rng) (h : N -> A) :
  (forall r, f r = (h (tape r (pos r)), mkRng (tape r) (S (pos r)))) ->
  forall n r, draws f n r = (map (fun k => h (tape r (pos r + k))) (seq 0 n), mkRng (tape r) (pos r + n)).
Proof.
  intros Hf. induction n as [|n IH]; intros r; cbn [draws seq map].
  - rewrite Nat.add_0_r. now destruct r.
  - rewrite Hf, IH. cbn [tape pos]. f_equal; [|f_equal; lia]. f_equal; [f_equal; f_equal; lia|].
    rewrite <- seq_shift, map_map. apply map_ext. intros k. f_equal. f_equal. lia.
Qed.

Lemma draws_uniform n r : draws uniform n r = (map (coming r) (seq 0 n), mkRng (tape r) (pos r + n)).
Proof. apply (draws_cells uniform (fun x => Z.of_N (x mod Npos two53) # two53)%Q). reflexivity. Qed.

Lemma coming_range r k : (0 <= coming r k /\ coming r k < 1)%Q.
Proof.
  apply (uniform_range (mkRng (tape r) (pos r + k)) _ (mkRng (tape r) (S (pos r + k)))). reflexivity.
Qed.

Lemma coming_drawn n r r' k : drawn n r r' -> coming r' k = coming r (n + k).
Proof. intros ->. unfold coming. cbn [tape pos]. now rewrite Nat.add_assoc. Qed.

Lemma drawn_trans n m r1 r2 r3 : drawn n r1 r2 -> drawn m r2 r3 -> drawn (n + m) r1 r3.
Proof. intros -> ->. unfold drawn. cbn. now rewrite Nat.add_assoc. Qed.

Lemma drawn_0 r : drawn 0 r r.
Proof. unfold drawn. rewrite Nat.add_0_r. now destruct r. Qed.

Lemma draws_choice_p ps n r :
  draws (choice_p_one ps) n r =
  (map (fun k => search_right (cumsum 0 ps) (coming r k)) (seq 0 n), mkRng (tape r) (pos r + n)).
Proof.
  apply (draws_cells (choice_p_one ps)
           (fun x => search_right (cumsum 0 ps) (Z.of_N (x mod Npos two53) # two53)%Q)). reflexivity.
Qed.

Lemma search_right_falls ps : forall acc u, (acc <= u)%Q -> (u < acc + qsum ps)%Q ->
  let i := search_right (cumsum acc ps) u in
  (acc + qsum (firstn i ps) <= u /\ u < acc + qsum (firstn (S i) ps))%Q.
Proof.
  induction ps as [|x ps IH]; intros acc u A B; cbn [qsum] in B; [lra|].
  cbn [cumsum search_right]. destruct (Qle_bool (acc + x) u) eqn:E.
  - apply Qle_bool_iff in E. destruct (IH (acc + x)%Q u) as [C D]; [exact E|lra|].
    cbn zeta. cbn [firstn qsum] in *. lra.
  - apply Qle_bool_false in E. cbn zeta. cbn [firstn qsum]. lra.
Qed.

Lemma choice_p_designates n size qs r idxs r' :
  choice_p n size (map Some qs) r = Ok (idxs, r') ->
  proper_weights qs /\ length qs = n /\ drawn size r r' /\ length idxs = size /\
  forall k i, nth_error idxs k = Some i -> designates qs (coming r k) i.
Proof.
  unfold choice_p. destruct (_ && _); [discriminate|]. rewrite map_length.
  destruct (Nat.eqb_spec (length qs) n) as [El|]; [|discriminate]. cbn [negb].
  assert (En : no_nan (map Some qs) = Ok qs) by now apply no_nan_Some. rewrite En. cbn [bind].
  destruct (existsb _ qs) eqn:Ee; [discriminate|].
  destruct (Qeq_bool (qsum qs) 1) eqn:Es; [|discriminate]. apply Qeq_bool_iff in Es. cbn [negb].
  intros H. injection H as H. rewrite draws_choice_p in H. injection H as <- <-.
  assert (Hp : proper_weights qs).
  { split; [|lra]. intros w Hw. apply Qltb_nlt. apply not_true_is_false. intros C.
    assert (existsb (fun q => Qltb q 0) qs = true) by (apply existsb_exists; eauto). congruence. }
  split; [exact Hp|]. split; [exact El|]. split; [reflexivity|]. split; [now rewrite map_length, seq_length|].
  intros k i Hk. rewrite nth_error_map in Hk. destruct (nth_error (seq 0 size) k) as [k'|] eqn:Ek; [|discriminate].
  cbn in Hk. injection Hk as <-.
  assert (k' = k).
  { assert (L : k < length (seq 0 size)) by (apply nth_error_Some; congruence). rewrite seq_length in L.
    rewrite (nth_error_nth' _ 0) in Ek by now rewrite seq_length. rewrite seq_nth in Ek by exact L. now injection Ek. }
  subst k'. pose proof (coming_range r k) as [U0 U1].
  destruct (search_right_falls qs 0 (coming r k)) as [A B]; [exact U0|lra|]. cbn zeta in A, B.
  split; rewrite Es; lra.
Qed.

Lemma designates_scaled ws s u i : (0 < s)%Q ->
  designates (map (fun w => w / s)%Q ws) u i <-> designates ws u i.
Proof.
  intros Hs. assert (Hnz : ~ (s == 0)%Q) by lra.
  assert (E : forall l, (qsum (map (fun w => w / s) l) == qsum l / s)%Q).
  { induction l as [|w l IH]; cbn; [field; exact Hnz|]. rewrite IH. field. exact Hnz. }
  unfold designates. rewrite <- !firstn_map || rewrite !firstn_map. rewrite !E.
  rewrite div_le_iff by exact Hs.
  setoid_replace (u * (qsum ws / s) * s)%Q with (u * qsum ws)%Q by (field; exact Hnz).
  rewrite div_lt_iff by exact Hs.
  setoid_replace (u * (qsum ws / s) * s)%Q with (u * qsum ws)%Q by (field; exact Hnz). reflexivity.
Qed.
