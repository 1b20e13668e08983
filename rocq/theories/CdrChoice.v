(** Drawing without replacement, with weights. *)
From Verif Require Import Base BaseFacts Rng RngFacts Utils UtilsFacts Relationship RelationshipFacts SpecRelationship RelationshipProps
  Frame Gens GensProps Clock Attribute AttributeFacts World Cdr CdrSetup.
From Coq Require Import Permutation Lqa.
Local Open Scope nat_scope.

Lemma cumsum_scaled (l : list Q) (c : Q) u : (0 < c)%Q -> forall acc,
  search_right (map (fun x => (x / c)%Q) (cumsum acc l)) u = search_right (cumsum acc l) (u * c).
Proof.
  intros Hc. induction l as [|x l IH]; intros acc; cbn [cumsum map search_right]; [reflexivity|].
  assert (E : Qle_bool ((acc + x) / c) u = Qle_bool (acc + x) (u * c)).
  { apply eq_true_iff_eq. rewrite !Qle_bool_iff. split; intros H.
    - assert (X : ((acc + x) / c * c <= u * c)%Q) by (apply Qmult_le_compat_r; lra). rewrite Qmult_comm in X. rewrite Qmult_div_r in X by lra. exact X.
    - apply Qle_shift_div_r; [exact Hc|exact H]. }
  rewrite E. destruct (Qle_bool (acc + x) (u * c)); [|reflexivity]. f_equal. apply IH.
Qed.

Lemma without_nth p found : forall k i q, nth_error p i = Some q ->
  nth_error (map (fun '(j, q0) => if mem j found then 0%Q else q0) (combine (seq k (length p)) p)) i = Some (if mem (k + i) found then 0%Q else q).
Proof.
  induction p as [|x p IH]; intros k [|i] q H; cbn in H; try discriminate.
  - injection H as <-. cbn. now rewrite Nat.add_0_r.
  - cbn [length seq combine map nth_error]. rewrite (IH (S k) i q H). now replace (S k + i) with (k + S i) by lia.
Qed.
Lemma without_length p found : length (without p found) = length p.
Proof. unfold without. rewrite map_length, combine_length, seq_length. lia. Qed.

Lemma qsum_nonneg l : (forall q, In q l -> 0 <= q)%Q -> (0 <= qsum l)%Q.
Proof. induction l as [|x l IH]; intros H; cbn [qsum]; [lra|]. pose proof (H x (or_introl eq_refl)). pose proof (IH (fun q Hq => H q (or_intror Hq))). lra. Qed.
Lemma qsum_positive l q : (forall q, In q l -> 0 <= q)%Q -> In q l -> (0 < q)%Q -> (0 < qsum l)%Q.
Proof.
  induction l as [|x l IH]; intros H Hq Hp; [destruct Hq|]. cbn [qsum]. pose proof (H x (or_introl eq_refl)).
  pose proof (qsum_nonneg l (fun q Hq => H q (or_intror Hq))). destruct Hq as [->|Hq]; [lra|].
  pose proof (IH (fun q Hq => H q (or_intror Hq)) Hq Hp). lra.
Qed.

(** With positive weights, a position drawn is a new one. *)
Lemma drawn_new p found u : (forall q, In q p -> 0 < q)%Q -> (exists i, i < length p /\ ~ In i found) -> (0 <= u < 1)%Q ->
  let i := search_right (normalised_cdf (without p found)) u in i < length p /\ ~ In i found.
Proof.
  intros Hp (j & Hj & Nj) Hu. cbn zeta. unfold normalised_cdf.
  assert (Nn : forall q, In q (without p found) -> (0 <= q)%Q).
  { intros q Hq. unfold without in Hq. apply in_map_iff in Hq as ([i q'] & <- & Hi). destruct (mem i found); [lra|]. apply in_combine_r in Hi. apply Qlt_le_weak, Hp, Hi. }
  destruct (nth_error p j) as [qj|] eqn:Ej; [|apply nth_error_None in Ej; lia].
  pose proof (without_nth p found 0 j qj Ej) as Wj. cbn [Nat.add] in Wj.
  assert (Fj : mem j found = false). { apply not_true_is_false. intros X. apply mem_In in X. contradiction. }
  rewrite Fj in Wj. fold (without p found) in Wj.
  assert (S0 : (0 < qsum (without p found))%Q).
  { apply (qsum_positive _ qj Nn); [eapply nth_error_In; exact Wj|]. apply Hp. eapply nth_error_In; exact Ej. }
  rewrite cumsum_scaled by exact S0.
  destruct (search_right_pos (without p found) 0 (u * qsum (without p found))) as (q & Eq & Pq).
  - apply Qmult_le_0_compat; lra.
  - rewrite Qplus_0_l. setoid_replace (qsum (without p found)) with (1 * qsum (without p found))%Q at 2 by ring. apply Qmult_lt_compat_r; lra.
  - set (i := search_right _ _) in *. assert (Hi : i < length p). { rewrite <- (without_length p found). apply nth_error_Some. congruence. }
    split; [exact Hi|]. intros X. destruct (nth_error p i) as [qi|] eqn:Ei; [|apply nth_error_None in Ei; lia].
    pose proof (without_nth p found 0 i qi Ei) as Wi. cbn [Nat.add] in Wi. fold (without p found) in Wi. rewrite (proj2 (mem_In i found) X) in Wi.
    rewrite Wi in Eq. injection Eq as <-. lra.
Qed.

Lemma room found n : NoDup found -> length found < n -> exists i, i < n /\ ~ In i found.
Proof.
  intros Nd H. destruct (Exists_dec (fun i => ~ In i found) (seq 0 n)) as [E|N].
  - intros i. destruct (in_dec Nat.eq_dec i found); [right; tauto|now left].
  - apply Exists_exists in E as (i & Hi & Hn). apply in_seq in Hi. exists i. split; [lia|exact Hn].
  - exfalso. assert (I : incl (seq 0 n) found).
    { intros i Hi. destruct (in_dec Nat.eq_dec i found) as [X|X]; [exact X|]. exfalso. apply N. apply Exists_exists. eauto. }
    pose proof (NoDup_incl_length (seq_NoDup n 0) I) as L. rewrite seq_length in L. lia.
Qed.

Lemma uniq_length_le (l : list nat) : length (uniq l) <= length l.
Proof. apply NoDup_incl_length; [apply uniq_NoDup|]. intros k Hk. exact (proj1 (uniq_In k l) Hk). Qed.

Lemma NoDup_append {A} (l1 l2 : list A) : NoDup l1 -> NoDup l2 -> (forall x, In x l2 -> ~ In x l1) -> NoDup (l1 ++ l2).
Proof.
  induction l1 as [|x l1 IH]; intros N1 N2 D; [exact N2|]. inversion N1 as [|? ? X Y]; subst. cbn. constructor.
  - rewrite in_app_iff. intros [Z|Z]; [contradiction|]. apply (D x Z). now left.
  - apply IH; [exact Y|exact N2|]. intros y Hy Z. apply (D y Hy). now right.
Qed.

Lemma fill_choice_spec p size : (forall q, In q p -> 0 < q)%Q -> size <= length p -> forall fuel found r,
  NoDup found -> Forall (fun i => i < length p) found -> length found <= size -> size <= fuel + length found ->
  exists xs r', fill_choice fuel size p found r = Ok (xs, r') /\ length xs = size /\ NoDup xs /\ Forall (fun i => i < length p) xs.
Proof.
  intros Hp Hs. induction fuel as [|fuel IH]; intros found r Nd Hf Hl Hfu; cbn [fill_choice].
  - rewrite (proj2 (Nat.leb_le size (length found))) by lia. exists found, r. repeat split; [lia|exact Nd|exact Hf].
  - destruct (Nat.leb_spec size (length found)) as [L|L]; [exists found, r; repeat split; [lia|exact Nd|exact Hf]|].
    destruct (draws uniform (size - length found) r) as [xs r1] eqn:Ed.
    pose proof (draws_length _ _ _ _ _ Ed) as Lx.
    assert (Fx : Forall (fun u => 0 <= u < 1)%Q xs).
    { eapply (draws_Forall (fun u => 0 <= u < 1)%Q uniform); [|exact Ed]. intros r0 u r0' E. exact (uniform_range _ _ _ E). }
    set (new := uniq (map (search_right (normalised_cdf (without p found))) xs)).
    assert (Hroom : exists i, i < length p /\ ~ In i found) by (apply room; [exact Nd|lia]).
    assert (Hnew : forall i, In i new -> i < length p /\ ~ In i found).
    { intros i Hi. unfold new in Hi. apply (proj1 (uniq_In _ _)) in Hi. apply in_map_iff in Hi as (u & <- & Hu). rewrite Forall_forall in Fx. apply drawn_new; auto. }
    assert (Ln : 1 <= length new <= size - length found).
    { split.
      - destruct xs as [|u xs]; [cbn in Lx; lia|]. destruct new as [|i l] eqn:En; [|cbn; lia]. exfalso.
        assert (X : In (search_right (normalised_cdf (without p found)) u) new) by (unfold new; apply (proj2 (uniq_In _ _)); now left). rewrite En in X. destruct X.
      - unfold new. eapply Nat.le_trans; [apply uniq_length_le|]. rewrite map_length. lia. }
    apply IH.
    + apply NoDup_append; [exact Nd|apply uniq_NoDup|intros i Hi; apply Hnew, Hi].
    + apply Forall_app. split; [exact Hf|]. apply Forall_forall. intros i Hi. apply Hnew, Hi.
    + rewrite app_length. lia.
    + rewrite app_length. lia.
Qed.

Lemma positive_filter p : (forall q, In q p -> 0 < q)%Q -> filter (fun q => Qltb 0 q) p = p.
Proof.
  induction p as [|q p IH]; intros H; [reflexivity|]. cbn. rewrite (proj2 (Qltb_lt 0 q)) by (apply H; now left). f_equal. apply IH. intros; apply H; now right.
Qed.
Lemma choice_p_norep_spec p size r : (forall q, In q p -> 0 < q)%Q -> (qsum p == 1)%Q -> size <= length p ->
  exists xs r', choice_p_norep (length p) size p r = Ok (xs, r') /\ length xs = size /\ NoDup xs /\ Forall (fun i => i < length p) xs.
Proof.
  intros Hp Hs Hl. unfold choice_p_norep. rewrite Nat.eqb_refl. cbn [negb].
  replace (existsb (fun q => Qltb q 0) p) with false.
  2:{ symmetry. apply not_true_is_false. intros X. apply existsb_exists in X as (q & Hq & X). apply Qltb_lt in X. pose proof (Hp q Hq). lra. }
  rewrite (proj2 (Qeq_bool_iff _ _) Hs). cbn [negb]. rewrite (proj2 (Nat.ltb_ge _ _)) by lia. rewrite (positive_filter p Hp), (proj2 (Nat.ltb_ge _ _)) by lia.
  apply fill_choice_spec; [exact Hp|exact Hl|constructor|constructor|cbn; lia|cbn; lia].
Qed.

(** ** The operators *)
Lemma operators_NoDup : NoDup operator_ids. Proof. apply seq_ids_NoDup. Qed.
Lemma take_spec {A} (l : list A) : forall idx, Forall (fun i => i < length l) idx -> exists vs, take idx l = Ok vs /\ Forall2 (fun i v => nth_error l i = Some v) idx vs.
Proof.
  induction idx as [|i idx IH]; intros H; [exists []; split; [reflexivity|constructor]|]. inversion H as [|? ? H1 H2]; subst.
  destruct (IH H2) as (vs & E & F). destruct (nth_error l i) as [v|] eqn:Ev; [|apply nth_error_None in Ev; lia].
  exists (v :: vs). unfold take in *. cbn [mapr]. rewrite Ev. cbn [bind]. rewrite E. split; [reflexivity|]. constructor; assumption.
Qed.
Lemma take_NoDup {A} (l : list A) idx vs : NoDup l -> NoDup idx -> Forall2 (fun i v => nth_error l i = Some v) idx vs -> NoDup vs /\ incl vs l.
Proof.
  intros Nl Ni F. induction F as [|i v idx vs Hv F IH]; [split; [constructor|intros x []]|]. inversion Ni as [|? ? X Y]; subst. destruct (IH Y) as [N I]. split.
  - constructor; [|exact N]. intros Hin. apply X. clear -Nl F Hv Hin. induction F as [|j u idx vs Hu F IH]; [destruct Hin|]. destruct Hin as [->|Hin]; [|right; auto].
    left. rewrite NoDup_nth_error in Nl. apply Nl; [apply nth_error_Some; congruence|congruence].
  - intros x [->|Hx]; [eapply nth_error_In; exact Hv|auto].
Qed.

Lemma pick_operators_spec qs : Forall (fun q => q <= 4) qs -> forall r, exists opss r', pick_operators qs r = Ok (opss, r') /\
  Forall2 (fun q ops => length ops = q /\ NoDup ops /\ incl ops operator_ids) qs opss.
Proof.
  induction 1 as [|q qs Hq H IH]; intros r; cbn [pick_operators]; [exists [], r; split; [reflexivity|constructor]|].
  change (length operator_ids) with (length operator_weights).
  destruct (choice_p_norep_spec operator_weights q r) as (xs & r1 & E & L & Nd & F).
  - intros w [<-|[<-|[<-|[<-|[]]]]]; reflexivity.
  - reflexivity.
  - exact Hq.
  - rewrite E. cbn [bind]. destruct (take_spec operator_ids xs F) as (ops & Et & F2). rewrite Et. cbn [bind].
    destruct (IH r1) as (opss & r' & Ep & F3). rewrite Ep. cbn [bind]. exists (ops :: opss), r'. split; [reflexivity|]. constructor; [|exact F3].
    destruct (take_NoDup _ _ _ operators_NoDup Nd F2) as [N I]. split; [|split; assumption]. rewrite <- L. clear -F2. now apply Forall2_length in F2.
Qed.
