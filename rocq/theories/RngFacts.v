From Verif Require Import Base BaseFacts Rng.
From Coq Require Import Lqa.

Lemma uniform_range r u r' : uniform r = (u, r') -> (0 <= u /\ u < 1)%Q.
Proof.
  unfold uniform, next_raw. intros [= <- _].
  assert (H : (tape r (pos r) mod N.pos two53 < N.pos two53)%N) by (apply N.mod_lt; easy).
  unfold Qle, Qlt. cbn [Qnum Qden].
  match type of H with (?m < _)%N => generalize dependent m; intros y H end.
  generalize dependent two53. intros d H. split; lia.
Qed.

Lemma beta_range r u r' : beta r = (u, r') -> (0 <= u /\ u <= 1)%Q.
Proof.
  unfold beta, next_raw. intros [= <- _].
  match goal with |- context [Z.of_N ?m] => assert (H : (m < 9007199254740993)%N) by (apply N.mod_lt; easy) end.
  unfold Qle. cbn [Qnum Qden]. change two53 with 9007199254740992%positive.
  match type of H with (?m < _)%N => generalize dependent m; intros y H end.
  split; lia.
Qed.

Lemma randint_lt n r i r' : n <> 0 -> randint n r = (i, r') -> i < n.
Proof.
  unfold randint, next_raw. intros Hn [= <- _].
  assert (H : (tape r (pos r) mod N.of_nat n < N.of_nat n)%N) by (apply N.mod_lt; lia).
  match type of H with (?m < _)%N => generalize dependent m; intros y H end. lia.
Qed.

Lemma draws_length {A} (f : rng -> A * rng) n r xs r' : draws f n r = (xs, r') -> length xs = n.
Proof.
  revert r xs r'; induction n as [|n IH]; cbn; intros r xs r'; [now intros [= <- _]|].
  destruct (f r) as [x r1]. destruct (draws f n r1) as [ys r2] eqn:E.
  intros [= <- _]. cbn. f_equal. eauto.
Qed.

Lemma draws_Forall {A} (P : A -> Prop) (f : rng -> A * rng) :
  (forall r x r', f r = (x, r') -> P x) ->
  forall n r xs r', draws f n r = (xs, r') -> Forall P xs.
Proof.
  intros Hf. induction n as [|n IH]; cbn; intros r xs r'; [intros [= <- _]; constructor|].
  destruct (f r) as [x r1] eqn:E1. destruct (draws f n r1) as [ys r2] eqn:E2.
  intros [= <- _]. constructor; eauto.
Qed.

Lemma choice_spec n size r xs r' :
  choice n size r = Ok (xs, r') -> length xs = size /\ Forall (fun i => i < n) xs.
Proof.
  unfold choice. destruct (_ && _) eqn:E; [easy|]. intros [= H]. split.
  - eapply draws_length; eauto.
  - destruct size as [|size].
    + cbn in H. injection H as <- _. constructor.
    + eapply (draws_Forall _ (randint n)); [|eauto].
      intros r0 x r0' Hr. eapply randint_lt; eauto.
      cbn in E. rewrite andb_true_r in E. now apply Nat.eqb_neq.
Qed.

Lemma choice_empty_raises size r : choice 0 (S size) r = Err ValueError.
Proof. reflexivity. Qed.

Lemma nth_error_remove_perm {A} (l : list A) i x :
  nth_error l i = Some x -> Permutation l (x :: remove_nth i l).
Proof.
  revert i; induction l as [|y l IH]; intros [|i]; cbn; try easy.
  - now intros [= ->].
  - intros H. rewrite (IH i H) at 1. apply perm_swap.
Qed.

Lemma shuffle_perm {A} n (l : list A) r xs r' :
  length l = n -> shuffle n l r = (xs, r') -> Permutation xs l.
Proof.
  revert l r xs r'; induction n as [|n IH]; cbn [shuffle]; intros l r xs r' Hn.
  - destruct l; [|easy]. intros H. now injection H as <- _.
  - destruct (randint (length l) r) as [i r1] eqn:E1.
    assert (Hi : i < length l) by (eapply randint_lt; eauto; lia).
    destruct (nth_error l i) as [x|] eqn:E2; [|apply nth_error_None in E2; lia].
    destruct (shuffle n (remove_nth i l) r1) as [ys r2] eqn:E3.
    intros [= <- _]. pose proof (nth_error_remove_perm _ _ _ E2) as Hp.
    assert (Hl : length (remove_nth i l) = n) by (apply Permutation_length in Hp; cbn in Hp; lia).
    symmetry. rewrite Hp. symmetry. constructor. eapply IH; eauto.
Qed.

Lemma permutation_perm {A} (l : list A) r xs r' :
  permutation l r = (xs, r') -> Permutation xs l.
Proof. now apply shuffle_perm. Qed.

Lemma NoDup_firstn {A} n (l : list A) : NoDup l -> NoDup (firstn n l).
Proof.
  revert n; induction l as [|x l IH]; intros [|n] H; cbn; try constructor.
  - inversion H as [|? ? Hx Hl]; subst. intros Hc. apply Hx.
    rewrite <- (firstn_skipn n l). apply in_or_app. auto.
  - inversion H; subst; auto.
Qed.

Lemma In_firstn {A} n (l : list A) x : In x (firstn n l) -> In x l.
Proof. intros H. rewrite <- (firstn_skipn n l). apply in_or_app. auto. Qed.

Lemma choice_norep_spec n size r xs r' :
  choice_norep n size r = Ok (xs, r') ->
  size <= n /\ length xs = size /\ NoDup xs /\ Forall (fun i => i < n) xs.
Proof.
  unfold choice_norep. destruct (Nat.ltb_spec n size) as [|Hle]; [easy|].
  destruct (permutation (seq 0 n) r) as [ys r1] eqn:E. intros [= <- _].
  apply permutation_perm in E.
  assert (Hl : length ys = n) by (apply Permutation_length in E; now rewrite seq_length in E).
  split; [easy|]. split; [rewrite firstn_length; lia|]. split.
  - apply NoDup_firstn. eapply Permutation_NoDup; [symmetry; eauto|apply seq_NoDup].
  - apply Forall_forall. intros i Hi. apply In_firstn in Hi.
    eapply Permutation_in in Hi; [|eauto]. apply in_seq in Hi. lia.
Qed.

Lemma choice_norep_ok n size r : size <= n -> exists xs r', choice_norep n size r = Ok (xs, r').
Proof.
  intros H. unfold choice_norep. destruct (Nat.ltb_spec n size); [lia|].
  destruct (permutation (seq 0 n) r). eauto.
Qed.

Lemma Qltb_lt a b : Qltb a b = true <-> (a < b)%Q.
Proof.
  unfold Qltb. rewrite negb_true_iff. split; intros H.
  - apply Qnot_le_lt. intros Hc. apply Qle_bool_iff in Hc. congruence.
  - destruct (Qle_bool b a) eqn:E; [|easy]. apply Qle_bool_iff in E. lra.
Qed.

Lemma Qltb_nlt a b : Qltb a b = false <-> (b <= a)%Q.
Proof.
  unfold Qltb. rewrite negb_false_iff. apply Qle_bool_iff.
Qed.

Lemma Qle_bool_false a b : Qle_bool a b = false <-> (b < a)%Q.
Proof.
  rewrite <- Qltb_lt. unfold Qltb. now rewrite negb_true_iff.
Qed.

Lemma search_right_pos p acc u :
  (acc <= u)%Q -> (u < acc + qsum p)%Q ->
  exists q, nth_error p (search_right (cumsum acc p) u) = Some q /\ (0 < q)%Q.
Proof.
  revert acc; induction p as [|x p IH]; cbn; intros acc H1 H2.
  - lra.
  - destruct (Qle_bool (acc + x) u) eqn:E; cbn.
    + apply Qle_bool_iff in E. apply IH; lra.
    + apply Qle_bool_false in E. exists x. split; [easy|lra].
Qed.

Lemma choice_p_one_pos p r i r' :
  (qsum p == 1)%Q -> choice_p_one p r = (i, r') ->
  exists q, nth_error p i = Some q /\ (0 < q)%Q.
Proof.
  unfold choice_p_one. destruct (uniform r) as [u r1] eqn:E. intros Hs [= <- _].
  apply uniform_range in E as [H1 H2]. apply search_right_pos; lra.
Qed.

Lemma no_nan_Some p qs : no_nan p = Ok qs <-> p = map Some qs.
Proof.
  revert qs; induction p as [|[q|] p IH]; cbn; intros qs.
  - split; [now intros [= <-]|]. now destruct qs.
  - split.
    + intros H. apply bind_ok in H as (qs' & H1 & [= <-]). apply IH in H1. cbn. now f_equal.
    + destruct qs as [|q' qs]; cbn; [easy|]. intros [= -> H]. apply IH in H. now rewrite H.
  - split; [easy|]. now destruct qs.
Qed.

(** Whatever numpy draws with probabilities [p] has a positive probability. *)
Lemma choice_p_spec n size p r xs r' :
  choice_p n size p r = Ok (xs, r') ->
  length xs = size /\
  Forall (fun i => exists q, nth_error p i = Some (Some q) /\ (0 < q)%Q) xs.
Proof.
  unfold choice_p. destruct (_ && _); [easy|]. destruct (negb _) eqn:El; [easy|].
  intros H. apply bind_ok in H as (qs & Hq & H). apply no_nan_Some in Hq. subst p.
  destruct (existsb _ _); [easy|]. destruct (negb (Qeq_bool _ _)) eqn:Es; [easy|].
  rewrite negb_false_iff in Es. apply Qeq_bool_iff in Es. injection H as H. split.
  - eapply draws_length; eauto.
  - eapply (draws_Forall _ (choice_p_one qs)); [|eauto].
    intros r0 i r0' Hr. destruct (choice_p_one_pos _ _ _ _ Es Hr) as (q & Hn & Hp).
    exists q. split; [|easy]. now rewrite nth_error_map, Hn.
Qed.

Lemma choice_p_index_lt n size p r xs r' :
  choice_p n size p r = Ok (xs, r') -> Forall (fun i => i < n) xs.
Proof.
  intros H. pose proof (choice_p_spec _ _ _ _ _ _ H) as [_ Hf].
  unfold choice_p in H. destruct (_ && _); [easy|].
  destruct (Nat.eqb_spec (length p) n) as [El|]; [|easy].
  apply Forall_forall. intros i Hi. rewrite Forall_forall in Hf.
  destruct (Hf i Hi) as (q & Hq & _). rewrite <- El. apply nth_error_Some. congruence.
Qed.
