(** Lemmas about the base vocabulary. *)
From Verif Require Import Base.

(** ** Orders *)
Lemma ascii_cmp_eq a b : ascii_cmp a b = Eq <-> a = b.
Proof.
  unfold ascii_cmp. rewrite N.compare_eq_iff. split; [|now intros ->].
  intros H. rewrite <- (ascii_N_embedding a), <- (ascii_N_embedding b). now rewrite H.
Qed.

Lemma ascii_cmp_antisym a b : ascii_cmp b a = CompOpp (ascii_cmp a b).
Proof. unfold ascii_cmp. apply N.compare_antisym. Qed.

Lemma ascii_cmp_trans a b c : ascii_cmp a b = Lt -> ascii_cmp b c = Lt -> ascii_cmp a c = Lt.
Proof. unfold ascii_cmp. rewrite !N.compare_lt_iff. apply N.lt_trans. Qed.

Lemma string_cmp_eq a : forall b, string_cmp a b = Eq <-> a = b.
Proof.
  induction a as [|x a IH]; intros [|y b]; cbn; try easy.
  destruct (ascii_cmp x y) eqn:E.
  - apply ascii_cmp_eq in E. subst y. rewrite IH. split; [now intros ->|now intros [= ->]].
  - split; [easy|]. intros [= -> ->]. rewrite (proj2 (ascii_cmp_eq y y) eq_refl) in E. easy.
  - split; [easy|]. intros [= -> ->]. rewrite (proj2 (ascii_cmp_eq y y) eq_refl) in E. easy.
Qed.

Lemma string_cmp_antisym a : forall b, string_cmp b a = CompOpp (string_cmp a b).
Proof.
  induction a as [|x a IH]; intros [|y b]; cbn; try easy.
  rewrite (ascii_cmp_antisym x y). destruct (ascii_cmp x y); cbn; auto.
Qed.

Lemma string_cmp_trans a : forall b c,
  string_cmp a b = Lt -> string_cmp b c = Lt -> string_cmp a c = Lt.
Proof.
  induction a as [|x a IH]; intros [|y b] [|z c]; cbn; try easy.
  destruct (ascii_cmp x y) eqn:E1; try easy; destruct (ascii_cmp y z) eqn:E2; try easy; intros H1 H2.
  - apply ascii_cmp_eq in E1; apply ascii_cmp_eq in E2; subst.
    rewrite (proj2 (ascii_cmp_eq z z) eq_refl). eauto.
  - apply ascii_cmp_eq in E1; subst. now rewrite E2.
  - apply ascii_cmp_eq in E2; subst. now rewrite E1.
  - now rewrite (ascii_cmp_trans _ _ _ E1 E2).
Qed.

Section ValInd.
  Variable P : val -> Prop.
  Hypothesis HNA : P VNA.
  Hypothesis HB : forall b, P (VBool b).
  Hypothesis HN : forall q, P (VNum q).
  Hypothesis HS : forall s, P (VStr s).
  Hypothesis HL : forall l, Forall P l -> P (VList l).
  Fixpoint val_ind' (v : val) : P v :=
    match v with
    | VNA => HNA | VBool b => HB b | VNum q => HN q | VStr s => HS s
    | VList l => HL l ((fix go l : Forall P l :=
                          match l with [] => Forall_nil _ | x :: l' => Forall_cons x (val_ind' x) (go l') end) l)
    end.
End ValInd.

Lemma Qc_compare_eq (x y : Qc) : Qccompare x y = Eq <-> x = y.
Proof.
  unfold Qccompare. rewrite <- Qeq_alt. split; [apply Qc_is_canon|now intros ->].
Qed.

Lemma val_cmp_eq : forall a b, val_cmp a b = Eq <-> a = b.
Proof.
  induction a as [|x|x|x|l IH] using val_ind'; intros [|y|y|y|m]; cbn [val_cmp]; try easy.
  - destruct x, y; cbn; easy.
  - rewrite Qc_compare_eq. split; [now intros ->|now intros [= ->]].
  - rewrite string_cmp_eq. split; [now intros ->|now intros [= ->]].
  - enough (H : (fix go (l m : list val) {struct l} : comparison :=
         match l, m with
         | [], [] => Eq
         | [], _ :: _ => Lt
         | _ :: _, [] => Gt
         | x :: l', y :: m' =>
             match val_cmp x y with Eq => go l' m' | c => c end
         end) l m = Eq <-> l = m).
    { rewrite H. split; [now intros ->|now intros [= ->]]. }
    revert m. induction IH as [|x l Hx _ IHl]; intros [|y m]; try easy.
    destruct (val_cmp x y) eqn:E.
    + rewrite IHl. apply Hx in E. subst. split; [now intros ->|now intros [= ->]].
    + split; [easy|]. intros [= -> ->]. now rewrite (proj2 (Hx y) eq_refl) in E.
    + split; [easy|]. intros [= -> ->]. now rewrite (proj2 (Hx y) eq_refl) in E.
Qed.

Lemma val_cmp_antisym : forall a b, val_cmp b a = CompOpp (val_cmp a b).
Proof.
  induction a as [|x|x|x|l IH] using val_ind'; intros [|y|y|y|m]; cbn [val_cmp]; try easy.
  - destruct x, y; cbn; easy.
  - unfold Qccompare. symmetry. apply Qcompare_antisym.
  - apply string_cmp_antisym.
  - revert m. induction IH as [|x l Hx _ IHl]; intros [|y m]; try easy.
    rewrite (Hx y). destruct (val_cmp x y); cbn; auto.
Qed.

Lemma val_cmp_trans : forall a b c, val_cmp a b = Lt -> val_cmp b c = Lt -> val_cmp a c = Lt.
Proof.
  induction a as [|x|x|x|l IH] using val_ind'; intros [|y|y|y|m] [|z|z|z|n]; cbn [val_cmp]; try easy.
  - destruct x, y, z; cbn; easy.
  - unfold Qccompare. rewrite <- !Qlt_alt. apply Qlt_trans.
  - apply string_cmp_trans.
  - revert m n. induction IH as [|x l Hx _ IHl]; intros [|y m] [|z n]; try easy.
    destruct (val_cmp x y) eqn:E1; try easy; destruct (val_cmp y z) eqn:E2; try easy; intros H1 H2.
    + apply val_cmp_eq in E1; apply val_cmp_eq in E2; subst.
      rewrite (proj2 (val_cmp_eq z z) eq_refl). eauto.
    + apply val_cmp_eq in E1; subst. now rewrite E2.
    + apply val_cmp_eq in E2; subst. now rewrite E1.
    + now rewrite (Hx _ _ E1 E2).
Qed.

Lemma val_eqb_eq a b : val_eqb a b = true <-> a = b.
Proof. unfold val_eqb. rewrite <- val_cmp_eq. destruct (val_cmp a b); easy. Qed.

#[global] Instance EqK_val : EqK val := {| keqb := val_eqb; keqb_eq := val_eqb_eq |}.
#[global] Instance EqK_string : EqK string := {| keqb := String.eqb; keqb_eq := String.eqb_eq |}.
#[global] Instance EqK_nat : EqK nat := {| keqb := Nat.eqb; keqb_eq := Nat.eqb_eq |}.

Lemma val_leb_refl a : val_leb a a = true.
Proof. unfold val_leb. now rewrite (proj2 (val_cmp_eq a a) eq_refl). Qed.

Lemma val_leb_total a b : val_leb a b = true \/ val_leb b a = true.
Proof. unfold val_leb. rewrite (val_cmp_antisym a b). destruct (val_cmp a b); cbn; auto. Qed.

Lemma val_leb_trans a b c : val_leb a b = true -> val_leb b c = true -> val_leb a c = true.
Proof.
  unfold val_leb.
  destruct (val_cmp a b) eqn:E1; try easy; destruct (val_cmp b c) eqn:E2; try easy; intros _ _.
  - apply val_cmp_eq in E1; subst. now rewrite E2.
  - apply val_cmp_eq in E1; subst. now rewrite E2.
  - apply val_cmp_eq in E2; subst. now rewrite E1.
  - now rewrite (val_cmp_trans _ _ _ E1 E2).
Qed.

Lemma val_leb_antisym a b : val_leb a b = true -> val_leb b a = true -> a = b.
Proof.
  unfold val_leb. rewrite (val_cmp_antisym a b). destruct (val_cmp a b) eqn:E; cbn; try easy.
  intros _ _. now apply val_cmp_eq.
Qed.

(** ** Results *)
Lemma bind_ok {A B} (r : result A) (f : A -> result B) b :
  bind r f = Ok b -> exists a, r = Ok a /\ f a = Ok b.
Proof. destruct r; cbn; [eauto|easy]. Qed.

Lemma mapr_ok_length {A B} (f : A -> result B) l l' : mapr f l = Ok l' -> length l' = length l.
Proof.
  revert l'; induction l as [|x l IH]; cbn; intros l' H.
  - now injection H as <-.
  - apply bind_ok in H as (y & _ & H). apply bind_ok in H as (ys & Hys & H).
    injection H as <-. cbn. f_equal. auto.
Qed.

Lemma mapr_ok_Forall2 {A B} (f : A -> result B) l l' :
  mapr f l = Ok l' <-> Forall2 (fun x y => f x = Ok y) l l'.
Proof.
  split.
  - revert l'; induction l as [|x l IH]; cbn; intros l' H.
    + injection H as <-. constructor.
    + apply bind_ok in H as (y & Hy & H). apply bind_ok in H as (ys & Hys & H).
      injection H as <-. constructor; auto.
  - induction 1 as [|x y l l' Hx _ IH]; cbn; [easy|]. now rewrite Hx; cbn; rewrite IH.
Qed.

(** ** Keys *)
Section Keys.
  Context {K : Type} `{EqK K}.

  Lemma keqb_refl k : keqb k k = true.
  Proof. now apply keqb_eq. Qed.

  Lemma keqb_neq a b : keqb a b = false <-> a <> b.
  Proof.
    rewrite <- keqb_eq. destruct (keqb a b); split; intuition congruence.
  Qed.

  Lemma keqb_spec a b : reflect (a = b) (keqb a b).
  Proof. destruct (keqb a b) eqn:E; constructor; [now apply keqb_eq|now apply keqb_neq]. Qed.

  Lemma keqb_sym a b : keqb a b = keqb b a.
  Proof.
    destruct (keqb_spec a b) as [->|N1]; [now rewrite keqb_refl|].
    symmetry. apply keqb_neq. auto.
  Qed.

  Lemma key_dec (a b : K) : {a = b} + {a <> b}.
  Proof. destruct (keqb a b) eqn:E; [left; now apply keqb_eq|right; now apply keqb_neq]. Qed.

  Lemma mem_In k l : mem k l = true <-> In k l.
  Proof.
    unfold mem. rewrite existsb_exists. split.
    - intros (x & Hx & E). apply keqb_eq in E. now subst.
    - intros Hk. exists k. split; [easy|apply keqb_refl].
  Qed.

  Lemma mem_not_In k l : mem k l = false <-> ~ In k l.
  Proof. rewrite <- mem_In. destruct (mem k l); intuition congruence. Qed.

  Lemma nodupb_NoDup l : nodupb l = true <-> NoDup l.
  Proof.
    induction l as [|x l IH]; cbn.
    - split; [constructor|easy].
    - rewrite andb_true_iff, negb_true_iff, mem_not_In, IH. split.
      + intros [? ?]. now constructor.
      + intros Hd. inversion Hd; auto.
  Qed.

  Lemma uniq_In k l : In k (uniq l) <-> In k l.
  Proof.
    induction l as [|x l IH]; cbn; [easy|].
    rewrite filter_In, IH, negb_true_iff, keqb_neq.
    destruct (key_dec x k); intuition congruence.
  Qed.

  Lemma uniq_NoDup l : NoDup (uniq l).
  Proof.
    induction l as [|x l IH]; cbn; constructor.
    - rewrite filter_In, negb_true_iff, keqb_neq. intuition congruence.
    - now apply NoDup_filter.
  Qed.

  Lemma filter_all_true {A} (p : A -> bool) l : (forall x, In x l -> p x = true) -> filter p l = l.
  Proof.
    induction l as [|x l IH]; cbn; intros Hp; [easy|].
    rewrite (Hp x) by auto. f_equal. apply IH. auto.
  Qed.

  Lemma uniq_id l : NoDup l -> uniq l = l.
  Proof.
    induction 1 as [|x l Hx Hl IH]; cbn; [easy|]. f_equal. rewrite IH.
    apply filter_all_true. intros y Hy. rewrite negb_true_iff, keqb_neq. intros ->. auto.
  Qed.
End Keys.

(** ** Dictionaries *)
Section Dicts.
  Context {K V : Type} `{EqK K}.
  Implicit Types (d : dict K V).

  Lemma dget_In k v d : dget k d = Some v -> In (k, v) d.
  Proof.
    induction d as [|[k' v'] d IH]; cbn; [easy|].
    destruct (keqb_spec k k') as [->|]; intros E; [injection E as ->|]; auto.
  Qed.

  Lemma dget_None k d : dget k d = None <-> ~ In k (dkeys d).
  Proof.
    induction d as [|[k' v'] d IH]; cbn; [easy|].
    destruct (keqb_spec k k') as [->|Hn].
    - split; [easy|]. intros Hc. exfalso. apply Hc. auto.
    - rewrite IH. split; [intros Hd [E|E]; auto|intuition].
  Qed.

  Lemma dget_Some_key k v d : dget k d = Some v -> In k (dkeys d).
  Proof. intros E. apply dget_In in E. unfold dkeys. now apply (in_map fst) in E. Qed.

  Lemma dmem_In k d : dmem k d = true <-> In k (dkeys d).
  Proof.
    unfold dmem. destruct (dget k d) eqn:E.
    - apply dget_Some_key in E. easy.
    - apply dget_None in E. split; [easy|]. intros; easy.
  Qed.

  Lemma In_dget k v d : NoDup (dkeys d) -> In (k, v) d -> dget k d = Some v.
  Proof.
    induction d as [|[k' v'] d IH]; cbn; [easy|].
    intros Hd [E|Hi]; inversion Hd as [|? ? Hn Hd']; subst.
    - injection E as -> ->. now rewrite keqb_refl.
    - destruct (keqb_spec k k') as [->|]; [|auto].
      exfalso. apply Hn. now apply (in_map fst) in Hi.
  Qed.

  Lemma dget_dset k v k' d : dget k' (dset k v d) = if keqb k' k then Some v else dget k' d.
  Proof.
    induction d as [|[k1 v1] d IH]; cbn.
    - reflexivity.
    - destruct (keqb_spec k k1) as [->|Hn]; cbn.
      + destruct (keqb_spec k' k1); reflexivity.
      + destruct (keqb_spec k' k1) as [->|]; [|apply IH].
        destruct (keqb_spec k1 k) as [->|]; [easy|reflexivity].
  Qed.

  Lemma dkeys_dset_mem k v d : In k (dkeys d) -> dkeys (dset k v d) = dkeys d.
  Proof.
    induction d as [|[k1 v1] d IH]; cbn; [easy|].
    destruct (keqb_spec k k1) as [->|Hn]; cbn; [easy|].
    intros [E|Hi]; [congruence|]. f_equal. auto.
  Qed.

  Lemma dkeys_dset_new k v d : ~ In k (dkeys d) -> dkeys (dset k v d) = dkeys d ++ [k].
  Proof.
    induction d as [|[k1 v1] d IH]; cbn; [easy|].
    intros Hi. destruct (keqb_spec k k1) as [->|Hn]; cbn; [intuition|].
    f_equal. auto.
  Qed.

  Lemma dkeys_dset_In k v d k' : In k' (dkeys (dset k v d)) <-> k' = k \/ In k' (dkeys d).
  Proof.
    destruct (in_dec key_dec k (dkeys d)) as [Hi|Hi].
    - rewrite dkeys_dset_mem by easy. intuition congruence.
    - rewrite dkeys_dset_new, in_app_iff by easy. cbn. intuition congruence.
  Qed.

  Lemma dset_NoDup k v d : NoDup (dkeys d) -> NoDup (dkeys (dset k v d)).
  Proof.
    intros Hd. destruct (in_dec key_dec k (dkeys d)) as [Hi|Hi].
    - now rewrite dkeys_dset_mem.
    - rewrite dkeys_dset_new by easy.
      apply (Permutation_NoDup (Permutation_cons_append (dkeys d) k)). now constructor.
  Qed.

  Lemma dkeys_ddel k d : dkeys (ddel k d) = filter (fun x => negb (keqb k x)) (dkeys d).
  Proof.
    unfold ddel, dkeys. induction d as [|[k1 v1] d IH]; cbn; [easy|].
    destruct (keqb k k1); cbn; [easy|now f_equal].
  Qed.

  Lemma dget_ddel k d k' : dget k' (ddel k d) = if keqb k' k then None else dget k' d.
  Proof.
    unfold ddel. induction d as [|[k1 v1] d IH]; cbn.
    - now destruct (keqb k' k).
    - destruct (keqb_spec k k1) as [->|Hn]; cbn.
      + rewrite IH. now destruct (keqb_spec k' k1).
      + destruct (keqb_spec k' k1) as [->|]; [|apply IH].
        destruct (keqb_spec k1 k) as [->|]; [easy|reflexivity].
  Qed.

  Lemma ddel_NoDup k d : NoDup (dkeys d) -> NoDup (dkeys (ddel k d)).
  Proof. intros Hd. rewrite dkeys_ddel. now apply NoDup_filter. Qed.
End Dicts.

(** ** Sorting *)
Section SortFacts.
  Context {A : Type} (leb : A -> A -> bool).

  Lemma insert_perm x l : Permutation (insert leb x l) (x :: l).
  Proof.
    induction l as [|y l IH]; cbn; [easy|].
    destruct (leb x y); [easy|]. rewrite IH. apply perm_swap.
  Qed.

  Lemma isort_perm l : Permutation (isort leb l) l.
  Proof. induction l as [|x l IH]; cbn; [easy|]. now rewrite insert_perm, IH. Qed.

  Hypothesis leb_total : forall a b, leb a b = true \/ leb b a = true.

  Lemma insert_sorted x l :
    Sorted (fun a b => leb a b = true) l -> Sorted (fun a b => leb a b = true) (insert leb x l).
  Proof.
    induction 1 as [|y l Hl IH Hy]; cbn.
    - repeat constructor.
    - destruct (leb x y) eqn:E.
      + constructor; [now constructor|now constructor].
      + assert (E' : leb y x = true) by (destruct (leb_total x y); congruence).
        constructor; [easy|].
        destruct Hy as [|z l Hz]; cbn; [now constructor|].
        destruct (leb x z); now constructor.
  Qed.

  Lemma isort_sorted l : Sorted (fun a b => leb a b = true) (isort leb l).
  Proof. induction l; cbn; [constructor|now apply insert_sorted]. Qed.
End SortFacts.

(** ** Sums *)
Lemma nsum_app l1 l2 : nsum (l1 ++ l2) = nsum l1 + nsum l2.
Proof. induction l1; cbn; lia. Qed.

Lemma nsum_perm l1 l2 : Permutation l1 l2 -> nsum l1 = nsum l2.
Proof. induction 1; cbn; lia. Qed.

Lemma slices_concat {A} sizes (l : list A) :
  length l = nsum sizes -> concat (slices sizes l) = l.
Proof.
  revert l; induction sizes as [|n sizes IH]; cbn; intros l Hl.
  - now destruct l.
  - rewrite IH; [apply firstn_skipn|]. rewrite skipn_length. lia.
Qed.

Lemma slices_lengths {A} sizes (l : list A) :
  length l = nsum sizes -> map (@length A) (slices sizes l) = sizes.
Proof.
  revert l; induction sizes as [|n sizes IH]; cbn; intros l Hl; [easy|].
  rewrite firstn_length, Nat.min_l by lia. f_equal. apply IH. rewrite skipn_length. lia.
Qed.

Lemma slices_length {A} sizes (l : list A) : length (slices sizes l) = length sizes.
Proof. revert l; induction sizes; cbn; auto. Qed.

(** ** np.delete *)
Lemma delete_from_map {A B} (f : A -> B) idxs : forall i l,
  delete_from i idxs (map f l) = map f (delete_from i idxs l).
Proof.
  intros i l; revert i; induction l as [|x l IH]; cbn; intros i; [easy|].
  destruct (existsb _ _); cbn; now rewrite IH.
Qed.

Lemma Forall2_length {A B} (R : A -> B -> Prop) l l' : Forall2 R l l' -> length l = length l'.
Proof. induction 1; cbn; auto. Qed.

Lemma NoDup_app_l {A} (l1 l2 : list A) : NoDup (l1 ++ l2) -> NoDup l1.
Proof.
  induction l1 as [|x l1 IH]; cbn; intros H; [constructor|]. inversion H as [|? ? Hn Hd]; subst.
  constructor; [|auto]. intros Hi. apply Hn. apply in_app_iff. auto.
Qed.

Lemma NoDup_app_r {A} (l1 l2 : list A) : NoDup (l1 ++ l2) -> NoDup l2.
Proof. induction l1 as [|x l1 IH]; cbn; intros H; [easy|]. inversion H; auto. Qed.
