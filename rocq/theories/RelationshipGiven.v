(** Consequences of select_many in terms of what each request is given. *)
From Verif Require Import Base BaseFacts Rng RngFacts Utils UtilsFacts Relationship
  RelationshipFacts RelationshipSelect RelationshipMany.

(** The list of items a request received ([] when absent from the result). *)
Definition given (rows : list (val * list val)) (i : val) : list val :=
  match dget i rows with Some l => l | None => [] end.

(** The "to" sides stored for [f], with multiplicity. *)
Definition tos_of (l : list (val * val * Q)) (f : val) : list val :=
  map (fun x => snd (fst x)) (filter (fun x => keqb (fst (fst x)) f) l).

Lemma tos_of_view g f : NoDup (dkeys g) -> Permutation (tos_of (contents g) f) (map fst (view g f)).
Proof.
  intros Hd. rewrite <- (lview_contents g f Hd). unfold lview, tos_of. now rewrite map_map.
Qed.

Lemma flat_map_insert {A} (k : val) (x : A) (h : val -> list A) fs :
  NoDup fs -> In k fs ->
  Permutation (flat_map (fun f => if keqb k f then x :: h f else h f) fs) (x :: flat_map h fs).
Proof.
  induction 1 as [|f fs Hn Hd IH]; cbn; [easy|]. intros [->|Hi].
  - rewrite keqb_refl. cbn. constructor. apply Permutation_app_head.
    apply Permutation_refl'. clear -Hn. induction fs as [|f fs IH]; cbn; [easy|].
    cbn in Hn. destruct (keqb_spec k f) as [->|]; [exfalso; auto|]. f_equal. apply IH. auto.
  - destruct (keqb_spec k f) as [->|]; [easy|]. rewrite IH by easy.
    symmetry. apply Permutation_middle.
Qed.

Lemma partition_perm {A} (key : A -> val) fs l :
  NoDup fs -> (forall x, In x l -> In (key x) fs) ->
  Permutation (flat_map (fun f => filter (fun x => keqb (key x) f) l) fs) l.
Proof.
  intros Hd. induction l as [|x l IH]; cbn; intros Hk.
  - clear. induction fs; cbn; auto.
  - rewrite flat_map_insert by auto. constructor. apply IH. auto.
Qed.

Definition known_reqs (reqs : list req) : list req := filter (fun q => negb (is_na (q_from q))) reqs.

Lemma asked_In reqs f : In f (asked reqs) <-> f <> VNA /\ exists q, In q reqs /\ q_from q = f.
Proof.
  unfold asked. rewrite uniq_In, filter_In, in_map_iff, negb_true_iff. split.
  - intros [(q & <- & Hq) Hn]. split; [|eauto]. intros E. now rewrite E in Hn.
  - intros [Hn (q & Hq & <-)]. split; [eauto|]. now destruct (q_from q).
Qed.

Section Full.
  Context (g : dict val relations) (reqs : list req) (full : list (val * list req * list pick)).
  Hypothesis Hd : NoDup (map q_idx reqs).
  Hypothesis Hk : map (fun x => fst (fst x)) full = asked reqs.
  Hypothesis Hg : Forall (fun '(f, qs, ps) => Permutation qs (requests_of f reqs) /\
                                group_ok g f qs ps) full.
  Let picks := flat_map snd full.
  Let out := filter nonempty_pick picks.

  Lemma full_reqs_perm : Permutation (flat_map (fun x => snd (fst x)) full) (known_reqs reqs).
  Proof.
    assert (E : Permutation (flat_map (fun x => snd (fst x)) full)
                 (flat_map (fun f => requests_of f reqs) (asked reqs))).
    { rewrite <- Hk. pose proof Hg as HG. clear -HG. induction HG as [|[[f qs] ps] full' [Hp _] _ IH]; cbn; [easy|].
      now apply Permutation_app. }
    rewrite E.
    assert (Er : forall f, In f (asked reqs) -> requests_of f reqs = requests_of f (known_reqs reqs)).
    { intros f Hf. apply asked_In in Hf as [Hn _]. unfold requests_of, known_reqs. clear -Hn.
      induction reqs as [|q l IH]; cbn; [easy|]. destruct (is_na (q_from q)) eqn:En; cbn.
      - destruct (keqb_spec (q_from q) f) as [E|]; [|easy]. destruct (q_from q); try discriminate En; congruence.
      - now rewrite IH. }
    transitivity (flat_map (fun f => requests_of f (known_reqs reqs)) (asked reqs)).
    - apply Permutation_refl'. revert Er. generalize (asked reqs) as fs. intros fs.
      induction fs as [|f fs IH]; cbn; intros Hf; [easy|]. rewrite Hf by auto. f_equal. apply IH. auto.
    - unfold requests_of. apply partition_perm; [apply uniq_NoDup|].
      intros q Hq. unfold known_reqs in Hq. apply filter_In in Hq as [Hq Hn].
      apply asked_In. split; [|eauto]. intros Ef. now rewrite Ef in Hn.
  Qed.

  Lemma full_forall2 : Forall2 (piece_ok g) (flat_map (fun x => snd (fst x)) full) picks.
  Proof.
    unfold picks. pose proof Hg as HG. clear -HG. induction HG as [|[[f qs] ps] full' [_ [Hp _]] _ IH]; cbn; [constructor|].
    now apply Forall2_app.
  Qed.

  Lemma full_ids : map p_req picks = map q_idx (flat_map (fun x => snd (fst x)) full).
  Proof.
    pose proof full_forall2 as HF. induction HF as [|q p qs ps Hp _ IH]; cbn; [easy|].
    f_equal; [apply Hp|easy].
  Qed.

  Lemma full_ids_perm : Permutation (map p_req picks) (map q_idx (known_reqs reqs)).
  Proof. rewrite full_ids. apply Permutation_map, full_reqs_perm. Qed.

  Lemma NoDup_map_filter {A B} (f : A -> B) (p : A -> bool) l : NoDup (map f l) -> NoDup (map f (filter p l)).
  Proof.
    induction l as [|x l IH]; cbn; intros H; [constructor|]. inversion H as [|? ? Hn Hl]; subst.
    destruct (p x); cbn; [|auto]. constructor; [|auto]. intros Hi. apply Hn.
    apply in_map_iff in Hi as (y & E & Hy). apply filter_In in Hy as [Hy _]. rewrite <- E. now apply in_map.
  Qed.

  Lemma picks_nodup : NoDup (map p_req picks).
  Proof.
    eapply Permutation_NoDup; [symmetry; apply full_ids_perm|]. now apply NoDup_map_filter.
  Qed.

  Lemma out_incl i : In i (map p_req out) -> In i (map q_idx reqs).
  Proof.
    intros Hi. apply in_map_iff in Hi as (p & <- & Hp). apply filter_In in Hp as [Hp _].
    apply (in_map p_req) in Hp. apply (Permutation_in _ full_ids_perm) in Hp.
    apply in_map_iff in Hp as (q & <- & Hq). apply filter_In in Hq as [Hq _]. now apply in_map.
  Qed.

  Context (extra : list val).
  Let rows := map (fun p => (p_req p, p_tos p)) out ++ map (fun i => (i, [])) extra.

  Lemma given_pick p : In p picks -> given rows (p_req p) = p_tos p.
  Proof.
    intros Hp. unfold given, rows.
    assert (Happ : forall (d1 d2 : list (val * list val)) k,
               dget k (d1 ++ d2) = match dget k d1 with Some v => Some v | None => dget k d2 end).
    { induction d1 as [|[k1 v1] d1 IH]; cbn; intros d2 k; [easy|]. destruct (keqb k k1); auto. }
    rewrite Happ.
    assert (Hno : NoDup (dkeys (map (fun p => (p_req p, p_tos p)) out))).
    { unfold dkeys. rewrite map_map. cbn. unfold out. apply NoDup_map_filter, picks_nodup. }
    destruct (nonempty_pick p) eqn:E.
    - assert (Hi : In (p_req p, p_tos p) (map (fun p => (p_req p, p_tos p)) out)).
      { apply (in_map (fun p => (p_req p, p_tos p))). unfold out. now apply filter_In. }
      now rewrite (In_dget _ _ _ Hno Hi).
    - assert (Et : p_tos p = []).
      { pose proof full_forall2 as HF. clear -HF Hp E.
        induction HF as [|q p' qs ps Hq _ IH]; [easy|]. destruct Hp as [->|Hp]; [|auto].
        unfold nonempty_pick in E. destruct Hq as (_ & _ & _ & Ht).
        destruct (p_idx p); [|easy]. cbn in Ht. now injection Ht as <-. }
      assert (Hn : ~ In (p_req p) (map p_req out)).
      { intros Hi. apply in_map_iff in Hi as (p' & Er & Hi). apply filter_In in Hi as [Hi E'].
        assert (p' = p); [|congruence].
        pose proof picks_nodup as Hnd. clear -Hnd Hp Hi Er. revert Hp Hi Hnd.
        generalize picks. intros l. induction l as [|x l IH]; cbn; [easy|].
        intros Hp Hi Hnd. inversion Hnd as [|? ? Hx Hl]; subst.
        destruct Hp as [->|Hp], Hi as [->|Hi]; try easy; auto; exfalso; apply Hx;
          [rewrite <- Er|rewrite Er]; now apply in_map. }
      replace (dget (p_req p) (map (fun p => (p_req p, p_tos p)) out)) with (@None (list val)).
      + rewrite Et. clear. induction extra as [|i l IH]; cbn; [easy|].
        now destruct (keqb (p_req p) i).
      + symmetry. apply dget_None. unfold dkeys. rewrite map_map. exact Hn.
  Qed.

  Lemma given_unknown q : In q reqs -> is_na (q_from q) = true -> given rows (q_idx q) = [].
  Proof.
    intros Hq Hna. unfold given.
    assert (Hn : ~ In (q_idx q) (map p_req out)).
    { intros Hi. apply in_map_iff in Hi as (p & Er & Hi). apply filter_In in Hi as [Hi _].
      apply (in_map p_req) in Hi. rewrite Er in Hi. apply (Permutation_in _ full_ids_perm) in Hi.
      apply in_map_iff in Hi as (q' & Eq & Hq'). apply filter_In in Hq' as [Hq' Hn'].
      assert (q' = q); [|subst; now rewrite Hna in Hn'].
      clear -Hd Hq Hq' Eq. induction reqs as [|x l IH]; [easy|]. cbn in Hd.
      inversion Hd as [|? ? Hx Hl]; subst.
      destruct Hq as [->|Hq], Hq' as [->|Hq']; try easy; auto; exfalso; apply Hx;
        [rewrite <- Eq|rewrite Eq]; now apply in_map. }
    assert (Hrow : forall l, In (q_idx q, l) rows -> l = []).
    { intros l Hl. unfold rows in Hl. apply in_app_iff in Hl as [Hl|Hl].
      - apply in_map_iff in Hl as (p & [= E1 E2] & Hp). exfalso. apply Hn. rewrite <- E1. now apply in_map.
      - apply in_map_iff in Hl as (i & [= _ <-] & _). easy. }
    destruct (dget (q_idx q) rows) as [l|] eqn:E; [|easy]. apply dget_In in E. auto.
  Qed.

  Lemma given_req q : In q reqs ->
    exists idxs, length idxs <= q_qty q /\
      take idxs (map fst (view g (q_from q))) = Ok (given rows (q_idx q)).
  Proof.
    intros Hq. destruct (is_na (q_from q)) eqn:Hna.
    - exists []. split; [cbn; lia|]. now rewrite given_unknown.
    - assert (Hin : In q (flat_map (fun x => snd (fst x)) full)).
      { apply (Permutation_in _ (Permutation_sym full_reqs_perm)). apply filter_In. now rewrite Hna. }
      assert (Hex : exists p, In p picks /\ piece_ok g q p).
      { pose proof full_forall2 as HF. clear -HF Hin.
        induction HF as [|q' p qs ps Hp _ IH]; [easy|]. destruct Hin as [->|Hin].
        - exists p. split; [now left|easy].
        - destruct (IH Hin) as (p' & ? & ?). exists p'. split; [now right|easy]. }
      destruct Hex as (p & Hp & Er & Ef & Hl & Ht). exists (p_idx p). split; [easy|].
      rewrite <- Er, given_pick; easy.
  Qed.

  Lemma given_group f : f <> VNA ->
    exists idxs, NoDup idxs /\
      length idxs = Nat.min (nsum (map q_qty (requests_of f reqs))) (length (view g f)) /\
      exists tos, take idxs (map fst (view g f)) = Ok tos /\
        Permutation tos (flat_map (fun q => given rows (q_idx q)) (requests_of f reqs)).
  Proof.
    intros Hn. destruct (in_dec key_dec f (asked reqs)) as [Hf|Hf].
    - rewrite <- Hk in Hf. apply in_map_iff in Hf as ([[f' qs] ps] & Ef & Hin). cbn in Ef. subst f'.
      pose proof Hg as HG. rewrite Forall_forall in HG. pose proof (HG _ Hin) as [Hp (HF & Hnd & Hlen)].
      exists (flat_map p_idx ps). split; [easy|]. split.
      { rewrite Hlen. f_equal. apply nsum_perm. now apply Permutation_map. }
      exists (flat_map p_tos ps).
      assert (Hqf : Forall (fun q => q_from q = f) qs).
      { apply Forall_forall. intros q Hq. apply (Permutation_in _ Hp) in Hq.
        apply filter_In in Hq as [_ Hq]. now apply keqb_eq in Hq. }
      split.
      + clear -HF Hqf. apply take_nth. induction HF as [|q p qs ps Hq _ IH]; cbn; [constructor|].
        inversion Hqf as [|? ? Ef Hqf']; subst. apply Forall2_app; [|auto].
        apply take_nth. apply Hq.
      + rewrite <- (Permutation_flat_map _ Hp).
        apply Permutation_refl'.
        assert (Hsub : forall p, In p ps -> In p picks).
        { intros p Hpp. unfold picks. apply in_flat_map. exists (f, qs, ps). easy. }
        clear -HF Hsub Hd Hk Hg.
        induction HF as [|q p qs ps Hq _ IH]; cbn; [easy|]. f_equal.
        * destruct Hq as (Er & _). rewrite <- Er. symmetry. apply given_pick. apply Hsub. now left.
        * apply IH. intros p' Hp'. apply Hsub. now right.
    - exists []. split; [constructor|].
      assert (E : requests_of f reqs = []).
      { assert (Hno : forall q, In q reqs -> q_from q <> f).
        { intros q Hq E. apply Hf. apply asked_In. eauto. }
        unfold requests_of. clear -Hno. induction reqs as [|q l IH]; cbn; [easy|].
        destruct (keqb_spec (q_from q) f) as [E|]; [exfalso; eapply Hno; [left|]; eauto|].
        apply IH. intros; apply Hno. now right. }
      rewrite E. split; [easy|]. exists []. now split.
  Qed.
End Full.

Lemma NoDup_map_inv_eq {A B} (f : A -> B) l x y :
  NoDup (map f l) -> In x l -> In y l -> f x = f y -> x = y.
Proof.
  induction l as [|a l IH]; cbn; [easy|]. intros Hd Hx Hy E.
  inversion Hd as [|? ? Hn Hl]; subst.
  destruct Hx as [->|Hx], Hy as [->|Hy]; try easy; auto; exfalso; apply Hn;
    [rewrite E|rewrite <- E]; now apply in_map.
Qed.

Lemma list_eqb_eq {K} `{EqK K} (a b : list K) : list_eqb a b = true <-> a = b.
Proof.
  unfold list_eqb. rewrite andb_true_iff, Nat.eqb_eq. split.
  - intros [El Hf]. revert b El Hf. induction a as [|x a IH]; intros [|y b]; cbn; try easy.
    intros [= El]. rewrite andb_true_iff, keqb_eq. intros [-> Hf]. f_equal. auto.
  - intros <-. split; [easy|]. induction a; cbn; [easy|]. now rewrite keqb_refl.
Qed.

Lemma index_difference_In a b i : In i (index_difference a b) <-> In i a /\ ~ In i b.
Proof.
  unfold index_difference. destruct (list_eqb a b) eqn:E.
  - apply list_eqb_eq in E. subst. cbn. tauto.
  - destruct b as [|y b].
    + cbn. tauto.
    + split.
      * intros Hi. apply (Permutation_in _ (isort_perm _ _)) in Hi. rewrite uniq_In in Hi.
        apply filter_In in Hi as [Hi Hm]. apply negb_true_iff in Hm. now apply mem_not_In in Hm.
      * intros [Hi Hm]. apply (Permutation_in _ (Permutation_sym (isort_perm _ _))). apply uniq_In.
        apply filter_In. split; [easy|]. apply negb_true_iff. now apply mem_not_In.
Qed.

Lemma index_difference_NoDup a b : NoDup a -> NoDup (index_difference a b).
Proof.
  intros Ha. unfold index_difference. destruct (list_eqb a b); [constructor|].
  destruct b; [easy|]. eapply Permutation_NoDup; [symmetry; apply isort_perm|apply uniq_NoDup].
Qed.

(** Bringing it together. *)
Lemma select_many_given r reqs rm disc rows r' :
  wf_grouped (grouped r) -> NoDup (map q_idx reqs) ->
  select_many r reqs rm disc = Ok (rows, r') ->
  NoDup (map fst rows) /\ incl (map fst rows) (map q_idx reqs) /\
  (forall q, In q reqs -> length (given rows (q_idx q)) <= q_qty q) /\
  (forall f, f <> VNA -> exists left_over,
     Permutation (tos_of (contents (grouped r)) f)
       (flat_map (fun q => given rows (q_idx q)) (requests_of f reqs) ++ left_over) /\
     length (flat_map (fun q => given rows (q_idx q)) (requests_of f reqs))
     = Nat.min (nsum (map q_qty (requests_of f reqs))) (length (tos_of (contents (grouped r)) f))) /\
  (disc = false -> Permutation (map fst rows) (map q_idx reqs)).
Proof.
  intros Hw Hd H. destruct (select_many_spec _ _ _ _ _ _ Hw Hd H)
    as (full & out & Hk & Hg & Eo & Er & _ & _).
  set (extra := if negb disc && negb (length out =? length reqs)
                then index_difference (map q_idx reqs) (map p_req out) else []).
  assert (Er' : rows = map (fun p => (p_req p, p_tos p)) out ++ map (fun i => (i, [])) extra).
  { rewrite Er. unfold extra. now destruct (negb disc && negb (length out =? length reqs)). }
  assert (Hex : forall i, In i extra -> In i (map q_idx reqs) /\ ~ In i (map p_req out)).
  { unfold extra. intros i. destruct (_ && _); [|easy]. now apply index_difference_In. }
  assert (Hex2 : forall i, In i extra -> ~ In i (map p_req (filter nonempty_pick (flat_map snd full)))).
  { intros i Hi. rewrite <- Eo. now apply Hex. }
  assert (Hkeys : map fst rows = map p_req out ++ extra).
  { rewrite Er', map_app, !map_map. cbn. now rewrite map_id. }
  assert (Hond : NoDup (map p_req out)).
  { rewrite Eo. apply NoDup_map_filter. exact (picks_nodup _ _ _ Hd Hk Hg). }
  assert (Hoi : incl (map p_req out) (map q_idx reqs)).
  { intros i Hi. rewrite Eo in Hi. exact (out_incl _ _ _ Hk Hg i Hi). }
  assert (Hnd : NoDup (map fst rows)).
  { rewrite Hkeys. apply NoDup_app_intro; [easy| |].
    - unfold extra. destruct (_ && _); [now apply index_difference_NoDup|constructor].
    - intros i Hi He. now apply (proj2 (Hex i He)). }
  assert (Hincl : incl (map fst rows) (map q_idx reqs)).
  { rewrite Hkeys. apply incl_app; [easy|]. intros i Hi. now apply Hex. }
  split; [easy|]. split; [easy|]. split; [|split].
  - intros q Hq. destruct (given_req _ _ _ Hd Hk Hg extra q Hq) as (idxs & Hl & Ht).
    apply take_length in Ht. rewrite Er', Eo. rewrite Ht. lia.
  - intros f Hf. destruct (given_group _ _ _ Hd Hk Hg extra f Hf) as (idxs & Hni & Hli & tos & Ht & Hp).
    rewrite <- Eo, <- Er' in Hp. exists (np_delete idxs (map fst (view (grouped r) f))). split.
    + rewrite tos_of_view by apply Hw. rewrite <- Hp.
      etransitivity; [apply (perm_delete _ _ _ Hni Ht)|]. apply Permutation_app_comm.
    + rewrite <- (Permutation_length Hp). apply take_length in Ht. rewrite Ht, Hli.
      f_equal. rewrite (Permutation_length (tos_of_view (grouped r) f (proj1 Hw))). now rewrite map_length.
  - intros ->. apply NoDup_Permutation; [easy|easy|]. intros i. split; [apply Hincl|].
    intros Hi. rewrite Hkeys. apply in_app_iff.
    destruct (in_dec key_dec i (map p_req out)) as [|Hno]; [now left|]. right.
    unfold extra. cbn [negb andb]. destruct (Nat.eqb_spec (length out) (length reqs)) as [El|_]; cbn [negb].
    + exfalso. apply Hno.
      assert (incl (map q_idx reqs) (map p_req out)); [|auto].
      apply NoDup_length_incl; [easy|rewrite !map_length; lia|easy].
    + now apply index_difference_In.
Qed.

(** Requests from a missing id get nothing. *)
Lemma select_many_missing r reqs rm disc rows r' : wf_grouped (grouped r) -> NoDup (map q_idx reqs) -> select_many r reqs rm disc = Ok (rows, r') ->
  forall q, In q reqs -> q_from q = VNA -> given rows (q_idx q) = [].
Proof.
  intros Hw Hd H q Hq Hf. destruct (select_many_spec _ _ _ _ _ _ Hw Hd H) as (full & out & Hk & Hg & Eo & Er & _ & _).
  unfold given. destruct (dget (q_idx q) rows) as [ts|] eqn:E; [|reflexivity]. apply dget_In in E. rewrite Er in E. apply in_app_iff in E as [E|E].
  - exfalso. apply in_map_iff in E as (p & E & Hp). injection E as E _. rewrite Eo in Hp. apply filter_In in Hp as [Hp _]. apply in_flat_map in Hp as ([[f qs] ps] & Hin & Hp).
    rewrite Forall_forall in Hg. destruct (Hg _ Hin) as [Hq' (Hps & _)]. cbn [snd] in Hp.
    assert (exists q', In q' qs /\ p_req p = q_idx q') as (q' & Hq1 & E1).
    { clear - Hps Hp. induction Hps as [|q p' qs ps Hp' _ IH]; [destruct Hp|]. destruct Hp as [->|Hp]; [exists q; split; [now left|apply Hp']|].
      destruct (IH Hp) as (q' & I & E). exists q'. split; [now right|exact E]. }
    apply (Permutation_in _ Hq') in Hq1. apply filter_In in Hq1 as [Hq1 Ef].
    assert (q' = q).
    { rewrite E1 in E. clear - Hd Hq Hq1 E. induction reqs as [|q0 l IH]; [destruct Hq|]. cbn [map] in Hd. apply NoDup_cons_iff in Hd as [N Hd]. destruct Hq as [->|Hq], Hq1 as [->|Hq1]; auto.
      - exfalso. apply N. rewrite <- E. now apply in_map.
      - exfalso. apply N. rewrite E. now apply in_map. }
    subst q'. destruct (keqb_spec (q_from q) f) as [<-|]; [|discriminate].
    assert (Ha : In (q_from q) (asked reqs)) by (rewrite <- Hk; apply (in_map (fun x : val * list req * list pick => fst (fst x)) _ _ Hin)).
    unfold asked in Ha. rewrite uniq_In in Ha. apply filter_In in Ha as [_ Ha]. rewrite Hf in Ha. discriminate.
  - destruct (negb disc && negb (length out =? length reqs)); [|destruct E]. apply in_map_iff in E as (i & E & _). now injection E as _ <-.
Qed.

(** ** select_many with removal *)
Definition first_idx (out : list pick) (f : val) : list nat :=
  match filter (fun p => keqb (p_from p) f) out with [] => [] | p :: _ => p_idx p end.

Lemma fold_left_ext_in {A B} (f h : A -> B -> A) l : forall a,
  (forall a b, In b l -> f a b = h a b) -> fold_left f l a = fold_left h l a.
Proof.
  induction l as [|b l IH]; intros a H; cbn; [easy|]. rewrite H by now left.
  apply IH. intros; apply H. now right.
Qed.

Lemma remove_selected_many_spec g out :
  wf_grouped g ->
  wf_grouped (remove_selected_many g out) /\
  forall f, view (remove_selected_many g out) f = np_delete (first_idx out f) (view g f).
Proof.
  intros Hw. unfold remove_selected_many.
  rewrite (fold_left_ext_in _ (fun g f => remove_group g f (first_idx out f))).
  - destruct (remove_fold_spec (first_idx out) (uniq (map p_from out)) g Hw (uniq_NoDup _)) as [H1 H2].
    split; [easy|]. intros f. rewrite H2. destruct (mem f (uniq (map p_from out))) eqn:E; [easy|].
    replace (first_idx out f) with (@nil nat); [now rewrite np_delete_nil|].
    apply mem_not_In in E. rewrite uniq_In in E. unfold first_idx.
    replace (filter (fun p => keqb (p_from p) f) out) with (@nil pick); [easy|].
    clear -E. induction out as [|p out IH]; cbn in *; [easy|].
    destruct (keqb_spec (p_from p) f); [exfalso; auto|]. apply IH. auto.
  - intros a f Hf. unfold first_idx. rewrite uniq_In in Hf.
    destruct (filter (fun p => keqb (p_from p) f) out) eqn:E; [|easy]. exfalso.
    apply in_map_iff in Hf as (p & Ep & Hp).
    assert (Hc : In p (filter (fun p => keqb (p_from p) f) out)) by (apply filter_In; split; [easy|now apply keqb_eq]).
    now rewrite E in Hc.
Qed.

Definition pick_sels (p : pick) : list sel :=
  map (fun x => mkSel (p_req p) (p_from p) (Some (fst x)) (snd x)) (combine (p_idx p) (p_tos p)).

Lemma pick_sels_idx p : length (p_tos p) = length (p_idx p) -> idx_list (pick_sels p) = p_idx p.
Proof.
  unfold pick_sels, idx_list. intros El. rewrite flat_map_concat_map, map_map. cbn.
  rewrite <- flat_map_concat_map.
  transitivity (map fst (combine (p_idx p) (p_tos p))); [|apply map_fst_combine; lia].
  induction (combine (p_idx p) (p_tos p)) as [|x l IH]; cbn; [easy|now f_equal].
Qed.

Lemma sels_of_picks f out :
  sels_of f (flat_map pick_sels out) = flat_map pick_sels (filter (fun p => keqb (p_from p) f) out).
Proof.
  unfold sels_of. induction out as [|p out IH]; cbn; [easy|]. rewrite filter_app, IH.
  unfold pick_sels at 1. destruct (keqb (p_from p) f) eqn:E; cbn.
  - f_equal. apply filter_all_true. intros s Hs. apply in_map_iff in Hs as (x & <- & _). exact E.
  - replace (filter _ (map _ _)) with (@nil sel); [easy|].
    induction (combine (p_idx p) (p_tos p)) as [|x l IHl]; cbn; [easy|]. rewrite E. apply IHl.
Qed.

Lemma first_idx_distinct out f :
  NoDup (map p_from out) -> Forall (fun p => length (p_tos p) = length (p_idx p)) out ->
  first_idx out f = idx_list (sels_of f (flat_map pick_sels out)).
Proof.
  intros Hd Hl. rewrite sels_of_picks. unfold first_idx.
  assert (Hone : match filter (fun p => keqb (p_from p) f) out with [] => True | _ :: l => l = [] end).
  { clear Hl. induction out as [|p out IH]; cbn; [easy|]. cbn in Hd. inversion Hd as [|? ? Hn Hd']; subst.
    destruct (keqb_spec (p_from p) f) as [E|]; [|exact (IH Hd')]. clear IH.
    assert (Hno : forall p', In p' out -> p_from p' <> f).
    { intros p' Hp' E'. apply Hn. rewrite E, <- E'. now apply in_map. }
    clear -Hno. induction out as [|p' out IH]; cbn; [easy|].
    destruct (keqb_spec (p_from p') f) as [E|]; [exfalso; apply (Hno p'); [now left|easy]|].
    apply IH. intros; apply Hno. now right. }
  assert (Hall : forall p, In p (filter (fun p => keqb (p_from p) f) out) -> length (p_tos p) = length (p_idx p)).
  { intros p Hp. apply filter_In in Hp as [Hp _]. rewrite Forall_forall in Hl. auto. }
  destruct (filter (fun p => keqb (p_from p) f) out) as [|p l]; [easy|]. subst l. cbn.
  rewrite app_nil_r. symmetry. apply pick_sels_idx. apply Hall. now left.
Qed.

Lemma pick_sels_valid g q p : piece_ok g q p -> Forall (row_valid g) (pick_sels p).
Proof.
  intros (_ & Ef & _ & Ht). apply take_nth in Ht. unfold pick_sels.
  rewrite <- Ef in Ht. apply Forall_forall. intros s Hs. apply in_map_iff in Hs as ([i t] & <- & Hi).
  cbn. unfold row_valid. cbn.
  assert (Hn : nth_error (map fst (view g (p_from p))) i = Some t).
  { revert Hi. clear -Ht. induction Ht as [|i' x is xs H _ IH]; cbn; [easy|].
    intros [[= -> ->]|Hi]; [easy|auto]. }
  rewrite nth_error_map in Hn. destruct (nth_error (view g (p_from p)) i) as [[t' w]|]; [|easy].
  cbn in Hn. injection Hn as ->. eauto.
Qed.

Lemma pick_pairs g q p : piece_ok g q p ->
  map fst (flat_map (row_triple g) (pick_sels p)) = map (pair (p_from p)) (p_tos p).
Proof.
  intros Hp. pose proof (pick_sels_valid _ _ _ Hp) as Hv.
  destruct Hp as (_ & _ & _ & Ht). apply take_length in Ht.
  assert (E : map fst (flat_map (row_triple g) (pick_sels p)) = map (fun s => (s_from s, s_to s)) (pick_sels p)).
  { assert (Hi : Forall (fun s => s_idx s <> None) (pick_sels p)).
    { apply Forall_forall. intros s Hs. apply in_map_iff in Hs as (x & <- & _). easy. }
    induction Hv as [|s l Hs _ IH]; cbn; [easy|]. inversion Hi; subst.
    rewrite map_app, IH by easy. rewrite row_triple_pair by easy.
    destruct (s_idx s); [easy|congruence]. }
  rewrite E. unfold pick_sels. rewrite map_map. cbn.
  rewrite <- (map_map snd (pair (p_from p))). f_equal. apply map_snd_combine. lia.
Qed.

Lemma select_many_pop r reqs disc rows r' :
  wf_grouped (grouped r) -> NoDup (map q_idx reqs) ->
  NoDup (map q_from (known_reqs reqs)) ->
  select_many r reqs true disc = Ok (rows, r') ->
  wf_grouped (grouped r') /\
  exists removed,
    Permutation (contents (grouped r)) (contents (grouped r') ++ removed) /\
    Permutation (map fst removed)
      (flat_map (fun q => map (pair (q_from q)) (given rows (q_idx q))) (known_reqs reqs)).
Proof.
  intros Hw Hd Hf H. destruct (select_many_spec _ _ _ _ _ _ Hw Hd H)
    as (full & out & Hk & Hg & Eo & Er & Egr & _).
  set (extra := if negb disc && negb (length out =? length reqs)
                then index_difference (map q_idx reqs) (map p_req out) else []).
  assert (Er' : rows = map (fun p => (p_req p, p_tos p)) out ++ map (fun i => (i, [])) extra).
  { rewrite Er. unfold extra. now destruct (negb disc && negb (length out =? length reqs)). }
  set (g := grouped r) in *.
  pose proof (full_forall2 _ _ _ Hg) as HF.
  pose proof (full_reqs_perm _ _ _ Hk Hg) as Hperm.
  set (picks := flat_map snd full) in *.
  assert (Hpf : NoDup (map p_from picks)).
  { assert (E : map p_from picks = map q_from (flat_map (fun x => snd (fst x)) full)).
    { clear -HF. induction HF as [|q p qs ps Hp _ IH]; cbn; [easy|]. f_equal; [apply Hp|easy]. }
    rewrite E. eapply Permutation_NoDup; [symmetry; apply Permutation_map, Hperm|easy]. }
  assert (Hlen : Forall (fun p => length (p_tos p) = length (p_idx p)) out).
  { rewrite Eo. apply Forall_forall. intros p Hp. apply filter_In in Hp as [Hp _]. clear -HF Hp.
    induction HF as [|q p' qs ps Hq _ IH]; [easy|]. destruct Hp as [->|Hp]; [|auto].
    destruct Hq as (_ & _ & _ & Ht). now apply take_length in Ht. }
  destruct (remove_selected_many_spec g out Hw) as [Hw' Hv].
  rewrite Egr. split; [easy|].
  exists (flat_map (row_triple g) (flat_map pick_sels out)). split.
  - apply remove_conserves; [easy|easy| | |].
    + intros f. rewrite Hv. f_equal. apply first_idx_distinct; [|easy].
      rewrite Eo. now apply NoDup_map_filter.
    + apply Forall_flat_map. apply Forall_forall. intros p Hp. rewrite Eo in Hp.
      apply filter_In in Hp as [Hp _]. clear -HF Hp.
      induction HF as [|q p' qs ps Hq _ IH]; [easy|]. destruct Hp as [->|Hp]; [|auto].
      exact (pick_sels_valid _ _ _ Hq).
    + intros f. rewrite <- first_idx_distinct; [|rewrite Eo; now apply NoDup_map_filter|easy].
      unfold first_idx. destruct (filter (fun p => keqb (p_from p) f) out) as [|p l] eqn:E; [constructor|].
      assert (Hp : In p out).
      { assert (In p (p :: l)) as Hi by now left. rewrite <- E in Hi. now apply filter_In in Hi. }
      rewrite Eo in Hp. apply filter_In in Hp as [Hp _]. unfold picks in Hp.
      apply in_flat_map in Hp as ([[f' qs] ps] & Hin & Hp). rewrite Forall_forall in Hg.
      destruct (Hg _ Hin) as [_ (_ & Hnd & _)]. cbn in Hp. clear -Hnd Hp.
      induction ps as [|p' ps IH]; [easy|]. cbn in Hnd. destruct Hp as [->|Hp].
      * now apply NoDup_app_l in Hnd.
      * apply NoDup_app_r in Hnd. auto.
  - transitivity (flat_map (fun q => map (pair (q_from q)) (given rows (q_idx q)))
                    (flat_map (fun x => snd (fst x)) full));
      [|now apply Permutation_flat_map].
    apply Permutation_refl'.
    transitivity (map fst (flat_map (row_triple g) (flat_map pick_sels picks))).
    { assert (E : flat_map pick_sels (filter nonempty_pick picks) = flat_map pick_sels picks).
      { clear. induction picks as [|p l IH]; cbn [filter flat_map]; [easy|].
        unfold nonempty_pick at 1. destruct (p_idx p) eqn:E; cbn [flat_map]; [|now rewrite IH].
        unfold pick_sels at 2. rewrite E. cbn. exact IH. }
      rewrite Eo. now rewrite E. }
    assert (Hgiven : forall p, In p picks -> given rows (p_req p) = p_tos p).
    { intros p Hp. rewrite Er', Eo. exact (given_pick _ _ _ Hd Hk Hg extra p Hp). }
    clear -HF Hgiven. induction HF as [|q p qs ps Hq _ IH]; cbn; [easy|].
    rewrite flat_map_app, map_app. f_equal.
    + rewrite (pick_pairs _ _ _ Hq). destruct Hq as (Er & Ef & _).
      rewrite <- Er, Hgiven by now left. now rewrite Ef.
    + apply IH. intros; apply Hgiven. now right.
Qed.
