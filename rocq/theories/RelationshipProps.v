(** Proofs of the relationship properties, in the vocabulary of SpecRelationship.v. *)
From Verif Require Import Base BaseFacts Rng RngFacts Utils UtilsFacts Relationship RelationshipFacts
  RelationshipSelect RelationshipMany RelationshipGiven SpecRelationship.

Lemma rel_triples_eq f rel :
  rel_triples f rel = map (fun tw => (f, fst tw, snd tw)) (combine (to_ids rel) (weights rel)).
Proof. unfold rel_triples. apply map_ext. now intros []. Qed.

Lemma stored_contents r : stored r = contents (grouped r).
Proof.
  unfold stored, contents. induction (grouped r) as [|[f rel] g IH]; cbn; [easy|].
  now rewrite IH, rel_triples_eq.
Qed.

Lemma lines3_lines froms tos ws : lines3 froms tos ws = lines froms tos ws.
Proof.
  revert tos ws. induction froms as [|f froms IH]; intros [|t tos] [|w ws]; cbn; try easy.
  unfold lines in *. cbn. now rewrite IH.
Qed.

Lemma add_grouped_wf_spec l : forall r r',
  wf_grouped (grouped r) -> add_grouped_aux r l = Ok r' ->
  wf_grouped (grouped r') /\
  Permutation (contents (grouped r'))
    (contents (grouped r) ++ flat_map (fun '(f, ts) => map (fun t => (f, t, 1%Q)) ts) l).
Proof.
  induction l as [|[f ts] l IH]; cbn [add_grouped_aux flat_map]; intros r r' Hw H.
  - injection H as <-. rewrite app_nil_r. auto.
  - apply bind_ok in H as (r1 & H1 & H).
    destruct (add_relations_spec _ _ _ _ _ Hw H1) as (Hw1 & _ & _ & Hp1).
    destruct (IH _ _ Hw1 H) as [Hw' Hp']. split; [easy|].
    rewrite Hp', Hp1, <- app_assoc. apply Permutation_app_head, Permutation_app_tail.
    apply Permutation_refl'. rewrite map_length. cbn [weights_list].
    unfold lines. clear. induction ts as [|t ts IH]; cbn; [easy|]. now f_equal.
Qed.

Lemma add_grouped_ok l : forall r, exists r', add_grouped_aux r l = Ok r'.
Proof.
  induction l as [|[f ts] l IH]; cbn [add_grouped_aux]; intros r; [eauto|].
  destruct (add_relations_ok r (map (fun _ => f) ts) ts (WScalar 1)) as [r1 H1].
  - rewrite map_length. easy.
  - cbn. rewrite repeat_length. easy.
  - rewrite H1. cbn. apply IH.
Qed.

Lemma select_many_wf r reqs rm disc rows r' :
  wf_grouped (grouped r) ->
  select_many r reqs rm disc = Ok (rows, r') -> wf_grouped (grouped r').
Proof.
  intros Hw. unfold select_many.
  destruct (gather _ _ _) as [all_reqs st1]. intros H.
  apply bind_ok in H as ([out st2] & _ & [= _ <-]). cbn [grouped].
  destruct rm; [|easy]. now apply remove_selected_many_spec.
Qed.

Lemma reachable_wf r : reachable r -> wf_grouped (grouped r).
Proof.
  induction 1 as [g seed|r froms tos w r' _ IH H|r froms lists r' _ IH H|r froms tos r' _ IH H
                 |r froms pop disc oto ov rows r' _ IH H|r reqs pop disc rows r' _ IH H].
  - split; constructor.
  - now apply (add_relations_spec _ _ _ _ _ IH H).
  - now apply (add_grouped_wf_spec _ _ _ IH H).
  - now apply (remove_relations_spec _ _ _ _ IH H).
  - exact (select_one_wf _ _ _ _ _ _ _ _ IH H).
  - exact (select_many_wf _ _ _ _ _ _ IH H).
Qed.

(** C36 *)
Lemma add_exact r froms tos w r' :
  reachable r -> add_relations r froms tos w = Ok r' ->
  Permutation (stored r') (stored r ++ lines3 froms tos (weights_list (length froms) w)).
Proof.
  intros Hr H. apply reachable_wf in Hr.
  destruct (add_relations_spec _ _ _ _ _ Hr H) as (_ & _ & _ & Hp).
  now rewrite !stored_contents, lines3_lines.
Qed.

(** C37 *)
Definition listed (froms tos : list val) (x : val * val * Q) : Prop :=
  In (fst x) (combine froms tos).

Lemma pair_mem_listed froms tos x :
  pair_mem (combine froms tos) x = true <-> In (fst x) (combine froms tos).
Proof. destruct x as [[f t] w]. apply pair_mem_In. Qed.

Lemma dmem_stored r f t w : In (f, t, w) (stored r) -> dmem f (grouped r) = true.
Proof.
  unfold stored. intros H. apply in_flat_map in H as ([f' rel] & Hk & H).
  apply in_map_iff in H as ([t' w'] & [= -> _ _] & _). apply dmem_In.
  unfold dkeys. apply in_map_iff. now exists (f, rel).
Qed.

Lemma In_zero_lines froms tos f t w :
  In (f, t, w) (zero_lines froms tos) -> In (f, t) (combine froms tos) /\ w = 0%Q.
Proof.
  unfold zero_lines, lines. intros H. apply in_map_iff in H as ([f' [t' w']] & [= -> -> ->] & H).
  revert tos H. induction froms as [|f0 froms IH]; intros [|t0 tos]; cbn; try easy.
  intros [[= -> -> ->]|H]; [auto|]. destruct (IH _ H). auto.
Qed.

Lemma remove_exact r froms tos r' :
  reachable r -> length froms = length tos -> remove_relations r froms tos = Ok r' ->
  exists kept gone ghosts,
    Permutation (stored r) (kept ++ gone) /\
    Permutation (stored r') (kept ++ ghosts) /\
    (forall x, In x kept -> ~ In (fst x) (combine froms tos)) /\
    (forall x, In x gone -> In (fst x) (combine froms tos)) /\
    (forall f t w, In (f, t, w) ghosts ->
       In (f, t) (combine froms tos) /\ w = 0%Q /\ isolated r f).
Proof.
  intros Hr El H. apply reachable_wf in Hr.
  destruct (remove_relations_spec _ _ _ _ Hr H) as (_ & _ & _ & Hp).
  rewrite !stored_contents in *.
  exists (filter (fun x => negb (pair_mem (combine froms tos) x)) (contents (grouped r))),
         (filter (pair_mem (combine froms tos)) (contents (grouped r))),
         (filter (fun x => negb (dmem (fst (fst x)) (grouped r))) (zero_lines froms tos)).
  split; [|split; [exact Hp|split; [|split]]].
  - clear. induction (contents (grouped r)) as [|x l IH]; cbn; [easy|].
    destruct (pair_mem _ x); cbn; [|now apply perm_skip]. apply (Permutation_cons_app _ _ x). exact IH.
  - intros x Hx. apply filter_In in Hx as [_ Hx]. rewrite negb_true_iff in Hx.
    intros Hi. apply pair_mem_listed in Hi. congruence.
  - intros x Hx. apply filter_In in Hx as [_ Hx]. now apply pair_mem_listed.
  - intros f t w Hx. apply filter_In in Hx as [Hx Hd]. cbn in Hd.
    destruct (In_zero_lines _ _ _ _ _ Hx) as [Hi ->]. split; [easy|]. split; [easy|].
    intros t' (w' & Hin). rewrite (dmem_stored _ _ _ _ Hin) in Hd. easy.
Qed.

Lemma remove_known r froms tos r' :
  reachable r -> length froms = length tos ->
  (forall f, In f froms -> exists t, related r f t) ->
  remove_relations r froms tos = Ok r' ->
  (forall f t, In (f, t) (combine froms tos) -> ~ related r' f t) /\
  exists gone,
    Permutation (stored r) (stored r' ++ gone) /\
    (forall f t w, In (f, t, w) gone -> In (f, t) (combine froms tos)).
Proof.
  intros Hr El Hk H. destruct (remove_exact _ _ _ _ Hr El H)
    as (kept & gone & ghosts & Hp & Hp' & Hkept & Hgone & Hgh).
  assert (E : ghosts = []).
  { destruct ghosts as [|[[f t] w] gs]; [easy|]. exfalso.
    destruct (Hgh f t w) as (Hi & _ & Hiso); [now left|].
    destruct (Hk f) as [t' Ht']; [now apply (in_combine_l _ _ _ _ Hi)|]. now apply (Hiso t'). }
  subst ghosts. rewrite app_nil_r in Hp'. split.
  - intros f t Hi (w & Hw). apply (Permutation_in _ Hp') in Hw. now apply (Hkept _ Hw).
  - exists gone. split; [now rewrite Hp, Hp'|]. intros f t w Hg. now apply (Hgone (f, t, w)).
Qed.

(** C38 *)
Lemma wf_normal r :
  reachable r ->
  NoDup (map fst (grouped r)) /\
  forall f rel, In (f, rel) (grouped r) ->
    length (weights rel) = length (to_ids rel) /\
    length (weights_normed rel) = length (weights rel) /\
    forall i w, nth_error (weights rel) i = Some w ->
      nth_error (weights_normed rel) i
      = Some (if Qeq_bool (fold_right Qplus 0%Q (weights rel)) 0 then None
              else Some (w / fold_right Qplus 0 (weights rel))%Q).
Proof.
  intros Hr. apply reachable_wf in Hr as [Hd Hf]. split; [exact Hd|].
  intros f rel Hin. rewrite Forall_forall in Hf. destruct (Hf _ Hin) as [E1 E2]. cbn in *.
  split; [easy|]. rewrite E2. unfold normalise. rewrite map_length. split; [easy|].
  intros i w Hi. rewrite nth_error_map, Hi. cbn [option_map].
  assert (Es : qsum (weights rel) = fold_right Qplus 0%Q (weights rel)).
  { generalize (weights rel). intros l. induction l; cbn; [easy|]. now rewrite IHl. }
  now rewrite Es.
Qed.

(** C39 *)
Lemma homogeneous_one_kind r : homogeneous r -> one_kind (contents (grouped r)).
Proof. unfold homogeneous. now rewrite stored_contents. Qed.

Lemma filter_mem_spec r ids x :
  In x (filter (fun x => mem (fst (fst x)) ids) (contents (grouped r)))
  <-> In x (stored r) /\ In (fst (fst x)) ids.
Proof. rewrite filter_In, stored_contents, mem_In. tauto. Qed.

Lemma get_relations_some' r ids :
  reachable r -> homogeneous r ->
  Permutation (get_relations r (Some ids))
    (filter (fun x => mem (fst (fst x)) ids) (stored r)).
Proof.
  intros Hr Hh. rewrite stored_contents. apply get_relations_some.
  - now apply reachable_wf.
  - now apply homogeneous_one_kind.
Qed.

Lemma get_relations_none' r :
  reachable r -> homogeneous r -> Permutation (get_relations r None) (stored r).
Proof.
  intros Hr Hh. rewrite stored_contents. apply get_relations_none.
  - now apply reachable_wf.
  - now apply homogeneous_one_kind.
Qed.

Lemma neighbourhood_count r ids f n :
  reachable r -> dget f (get_neighbourhood_size r ids) = Some n ->
  In f ids /\ n = length (tos_stored r f).
Proof.
  intros Hr H. unfold get_neighbourhood_size in H.
  assert (Hin : In (f, n) (map (fun f => (f, neighbourhood_size r f)) (uniq ids))).
  { now apply dget_In. }
  apply in_map_iff in Hin as (f' & [= -> <-] & Hu). apply (proj1 (uniq_In _ _)) in Hu. split; [easy|].
  rewrite neighbourhood_size_spec by now apply reachable_wf.
  unfold tos_stored. now rewrite map_length, stored_contents.
Qed.

Lemma neighbourhood_all r ids f :
  In f ids -> exists n, dget f (get_neighbourhood_size r ids) = Some n.
Proof.
  intros Hi. unfold get_neighbourhood_size. apply (proj2 (uniq_In _ _)) in Hi.
  induction (uniq ids) as [|f0 l IH]; [easy|]. cbn. destruct (keqb_spec f f0); [eauto|].
  destruct Hi; [congruence|]. auto.
Qed.

(** C40 *)
Lemma has_relation_related r f :
  wf_grouped (grouped r) ->
  has_relation (grouped r) f = true <-> exists t, related r f t.
Proof.
  intros Hw. unfold has_relation, related. rewrite stored_contents. split.
  - destruct (view (grouped r) f) as [|[t w] l] eqn:E; [easy|]. intros _.
    exists t, w. apply In_contents; [apply Hw|]. rewrite E. now left.
  - intros (t & w & H). apply In_contents in H; [|apply Hw].
    now destruct (view (grouped r) f).
Qed.

Lemma has_relation_isolated r f :
  wf_grouped (grouped r) ->
  has_relation (grouped r) f = false <-> isolated r f.
Proof.
  intros Hw. split.
  - intros H t Ht. assert (E : has_relation (grouped r) f = true)
      by (apply has_relation_related; eauto). congruence.
  - intros H. destruct (has_relation (grouped r) f) eqn:E; [|easy].
    apply has_relation_related in E as [t Ht]; [|easy]. now apply H in Ht.
Qed.

Lemma row_ok_spec r ov rq s :
  wf_grouped (grouped r) -> row_ok (grouped r) ov rq s ->
  s_req s = fst rq /\ s_from s = snd rq /\
  (related r (s_from s) (s_to s) \/ (isolated r (s_from s) /\ s_to s = VNA)).
Proof.
  intros Hw (E1 & E2 & H). split; [easy|]. split; [easy|]. destruct (s_idx s) as [i|].
  - destruct H as (w & Hn & _). left. exists w. rewrite stored_contents.
    apply In_contents; [apply Hw|]. now apply nth_error_In in Hn.
  - destruct H as [Hv ->]. right. split; [|easy]. apply has_relation_isolated; [easy|].
    unfold has_relation. now rewrite Hv.
Qed.

Lemma select_one_rows r reqs pop disc oto ov rows r' :
  reachable r -> select_one r (Some reqs) pop disc oto ov = Ok (rows, r') ->
  forall i f t, In (i, f, t) rows ->
    In (i, f) reqs /\
    (related r f t \/ (isolated r f /\ t = VNA /\ disc = false)).
Proof.
  intros Hr H i f t Hin. apply reachable_wf in Hr.
  destruct (select_one_spec _ _ _ _ _ _ _ _ Hr H) as (picks & out & HF & Hoff & Hon & -> & _ & _).
  assert (Hincl : incl out picks).
  { destruct oto; [now apply Hon|]. rewrite Hoff by easy. apply incl_refl. }
  apply in_map_iff in Hin as (s & [= <- <- <-] & Hs). apply Hincl in Hs.
  destruct (In_nth_error _ _ Hs) as [n Hn].
  assert (Hrow : exists rq, In rq (answered r disc (Some reqs)) /\ row_ok (grouped r) ov rq s).
  { clear -HF Hn. revert n Hn. induction HF as [|rq s0 l l' H0 _ IH]; intros [|n]; cbn; try easy.
    - intros [= <-]. eauto.
    - intros Hn. destruct (IH _ Hn) as (rq' & ? & ?). eauto. }
  destruct Hrow as (rq & Hrq & Hok).
  destruct (row_ok_spec _ _ _ _ Hr Hok) as (E1 & E2 & Hc).
  unfold answered in Hrq. apply filter_In in Hrq as [Hrq Hd].
  split; [rewrite E1, E2; now destruct rq|].
  destruct Hc as [Hc|[Hi ->]]; [now left|]. right. split; [easy|]. split; [easy|].
  destruct disc; [|easy]. cbn in Hd. rewrite <- E2 in Hd.
  apply has_relation_related in Hd as [t Ht]; [|easy]. now apply Hi in Ht.
Qed.

Lemma select_one_aligned r reqs pop disc ov rows r' :
  reachable r -> select_one r (Some reqs) pop disc false ov = Ok (rows, r') ->
  exists kept,
    map (fun '(i, f, _) => (i, f)) rows = kept /\
    (disc = false -> kept = reqs) /\
    (disc = true -> kept = filter (fun rq => has_relation (grouped r) (snd rq)) reqs).
Proof.
  intros Hr H. apply reachable_wf in Hr.
  destruct (select_one_spec _ _ _ _ _ _ _ _ Hr H) as (picks & out & HF & Hoff & _ & -> & _ & _).
  rewrite Hoff by easy. eexists. split; [reflexivity|].
  assert (E : map (fun '(i, f, _) => (i, f)) (map public_row picks) = answered r disc (Some reqs)).
  { clear -HF. induction HF as [|rq s l l' Hok _ IH]; cbn; [easy|]. rewrite IH. f_equal.
    destruct Hok as (-> & -> & _). now destruct rq. }
  rewrite E. unfold answered, requests. split; intros ->; cbn.
  - clear. induction reqs; cbn; [easy|]. now f_equal.
  - reflexivity.
Qed.

(** C41 *)
Lemma sel_rows_one_to_one out st out' st' :
  one_to_one_filter out st = (out', st') ->
  NoDup (filter (fun t => negb (is_na t)) (map s_to out')) /\
  incl out' out /\
  filter blank out' = filter blank out /\
  (forall t, In t (map s_to out) -> In t (map s_to out')).
Proof.
  intros H. destruct (one_to_one_spec _ _ _ _ H) as (Hd & Hi & Hb & Hk).
  assert (Ef : forall l, filter (fun t => negb (is_na t)) (map s_to l)
                         = map s_to (filter (fun s => negb (blank s)) l)).
  { intros l. induction l as [|s l IH]; cbn; [easy|]. unfold blank at 1.
    destruct (is_na (s_to s)); cbn; now rewrite IH. }
  split; [now rewrite Ef|]. split; [easy|]. split; [easy|].
  intros t Ht. apply in_map_iff in Ht as (s & <- & Hs).
  destruct (blank s) eqn:Eb.
  - apply in_map. assert (In s (filter blank out')) by (rewrite Hb; now apply filter_In).
    now apply filter_In in H0.
  - assert (Hx : In (s_to s) (map s_to (filter (fun s => negb (blank s)) out'))).
    { apply Hk. apply in_map. apply filter_In. split; [easy|]. now rewrite Eb. }
    apply in_map_iff in Hx as (s' & E & Hs'). apply filter_In in Hs' as [Hs' _].
    rewrite <- E. now apply in_map.
Qed.

Lemma select_one_one_to_one r froms pop disc ov rows r' :
  select_one r froms pop disc true ov = Ok (rows, r') ->
  NoDup (filter (fun t => negb (is_na t)) (map snd rows)) /\
  exists rows0 r0,
    select_one r froms pop disc false ov = Ok (rows0, r0) /\
    incl rows rows0 /\
    filter (fun x => is_na (snd x)) rows = filter (fun x => is_na (snd x)) rows0 /\
    (forall t, In t (map snd rows0) -> In t (map snd rows)).
Proof.
  unfold select_one. destruct (negb (overridden_ok r ov)); [easy|]. intros H.
  apply bind_ok in H as ([picks st1] & Hp & H). rewrite Hp. cbn [bind].
  destruct picks as [|p picks'] eqn:Ep.
  - injection H as <- _. split; [constructor|]. do 2 eexists. split; [reflexivity|].
    split; [easy|]. split; [easy|]. easy.
  - rewrite <- Ep in *. destruct (one_to_one_filter picks st1) as [out st2] eqn:Eo.
    replace (match picks with [] => ([], st1) | _ :: _ => (picks, st1) end) with (picks, st1) by now rewrite Ep.
    injection H as <- _.
    destruct (sel_rows_one_to_one _ _ _ _ Eo) as (Hd & Hi & Hb & Hk).
    assert (Es : forall l, map snd (map (fun s => (s_req s, s_from s, s_to s)) l) = map s_to l).
    { intros l. rewrite map_map. now apply map_ext. }
    split; [now rewrite Es|]. do 2 eexists. split; [reflexivity|].
    split; [|split].
    + intros x Hx. apply in_map_iff in Hx as (s & <- & Hs). apply in_map_iff. exists s. auto.
    + assert (Ef : forall l, filter (fun x => is_na (snd x)) (map (fun s => (s_req s, s_from s, s_to s)) l)
                             = map (fun s => (s_req s, s_from s, s_to s)) (filter blank l)).
      { intros l. induction l as [|s l IH]; cbn; [easy|]. unfold blank at 1.
        destruct (is_na (s_to s)); cbn; now rewrite IH. }
      now rewrite !Ef, Hb.
    + rewrite !Es. exact Hk.
Qed.

(** C42 *)
Lemma sold_triples g out :
  (forall s, In s out -> row_valid g s) ->
  (forall s, In s out -> s_idx s = None -> s_to s = VNA) ->
  (forall s, In s out -> s_idx s <> None -> s_to s <> VNA) ->
  map fst (flat_map (row_triple g) out) = sold (map public_row out).
Proof.
  induction out as [|s out IH]; cbn; intros Hv Hn Hs; [easy|].
  rewrite map_app, IH by auto. f_equal.
  rewrite row_triple_pair by auto. destruct (s_idx s) eqn:E.
  - destruct (is_na (s_to s)) eqn:Ena; [|easy].
    exfalso. apply (Hs s); [now left|congruence|]. now destruct (s_to s).
  - now rewrite (Hn s) by auto.
Qed.

Lemma row_ok_idx_some r ov rq s :
  wf_grouped (grouped r) -> no_na_tos r -> row_ok (grouped r) ov rq s ->
  (s_idx s = None -> s_to s = VNA) /\ (s_idx s <> None -> s_to s <> VNA).
Proof.
  intros Hw Hna (_ & _ & H). destruct (s_idx s) as [i|].
  - destruct H as (w & Hn & _). split; [easy|]. intros _.
    apply (Hna (s_from s) (s_to s) w). rewrite stored_contents.
    apply In_contents; [apply Hw|]. now apply nth_error_In in Hn.
  - destruct H as [_ ->]. easy.
Qed.

Lemma Forall2_In_r {A B} (R : A -> B -> Prop) l l' y :
  Forall2 R l l' -> In y l' -> exists x, In x l /\ R x y.
Proof.
  induction 1 as [|a b l l' Hab _ IH]; cbn; [easy|]. intros [<-|Hi]; [eauto|].
  destruct (IH Hi) as (x & ? & ?). eauto.
Qed.

Lemma filter_all_true {A} (p : A -> bool) l : (forall x, In x l -> p x = true) -> filter p l = l.
Proof.
  induction l as [|x l IH]; cbn; intros H; [easy|]. rewrite H by auto. f_equal. auto.
Qed.

Lemma select_one_pop r reqs disc oto ov rows r' :
  reachable r -> no_na_tos r ->
  (oto = true \/ NoDup (map snd reqs)) ->
  select_one r (Some reqs) true disc oto ov = Ok (rows, r') ->
  exists gone,
    Permutation (stored r) (stored r' ++ gone) /\ map fst gone = sold rows.
Proof.
  intros Hr Hna Hcase H. apply reachable_wf in Hr.
  destruct (select_one_spec _ _ _ _ _ _ _ _ Hr H) as (picks & out & HF & Hoff & Hon & -> & Eg & _).
  assert (Hincl : incl out picks).
  { destruct oto; [now apply Hon|]. rewrite Hoff by easy. apply incl_refl. }
  assert (Hidx : forall s, In s out ->
            (s_idx s = None -> s_to s = VNA) /\ (s_idx s <> None -> s_to s <> VNA)).
  { intros s Hs. destruct (Forall2_In_r _ _ _ _ HF (Hincl _ Hs)) as (rq & _ & Hok).
    exact (row_ok_idx_some _ _ _ _ Hr Hna Hok). }
  assert (Hval : Forall (row_valid (grouped r)) out) by exact (Forall2_incl_valid _ _ _ _ _ HF Hincl).
  exists (flat_map (row_triple (grouped r)) out). split.
  - rewrite !stored_contents. apply select_one_conserves; [easy|easy|easy|].
    destruct oto.
    + destruct (Hon eq_refl) as (Hd & _). apply (nodup_idx_of_distinct_tos _ _ Hval).
      erewrite filter_ext_in; [exact Hd|]. intros s Hs. destruct (Hidx s Hs) as [H1 H2].
      unfold blank. destruct (s_idx s); [|now rewrite H1].
      destruct (s_to s); try easy. exfalso. now apply H2.
    + destruct Hcase as [|Hdf]; [easy|]. apply nodup_idx_of_distinct_froms.
      rewrite Hoff by easy.
      assert (E : map s_from picks = map snd (answered r disc (Some reqs))).
      { clear -HF. induction HF as [|rq s l l' Hok _ IH]; cbn; [easy|]. rewrite IH. f_equal. apply Hok. }
      rewrite E. unfold answered, requests. clear -Hdf.
      induction reqs as [|rq l IH]; cbn; [constructor|]. inversion Hdf as [|? ? Hn Hd]; subst.
      destruct (negb disc || _); cbn; [|now apply IH]. constructor; [|now apply IH].
      intros Hi. apply Hn. apply in_map_iff in Hi as (x & <- & Hx). apply filter_In in Hx.
      now apply in_map.
  - apply sold_triples.
    + intros s Hs. rewrite Forall_forall in Hval. auto.
    + intros s Hs. now apply Hidx.
    + intros s Hs. now apply Hidx.
Qed.

Lemma select_one_keeps r froms disc oto ov rows r' :
  select_one r froms false disc oto ov = Ok (rows, r') -> stored r' = stored r.
Proof.
  unfold select_one. destruct (negb (overridden_ok r ov)); [easy|]. intros H.
  apply bind_ok in H as ([picks st1] & _ & H).
  destruct picks; [injection H as _ <-; reflexivity|].
  destruct oto.
  - destruct (one_to_one_filter _ _) as [oo ss]. now injection H as _ <-.
  - now injection H as _ <-.
Qed.

(** C43 *)
Lemma In_lines3 froms : forall tos ws f t w,
  In (f, t, w) (lines3 froms tos ws) -> In t tos.
Proof.
  induction froms as [|f0 froms IH]; intros [|t0 tos] [|w0 ws]; cbn; try easy.
  intros f t w [[= -> -> ->]|H]; eauto.
Qed.

Lemma map_fst_lines3 froms : forall tos ws,
  length tos = length froms -> length ws = length froms ->
  map fst (lines3 froms tos ws) = combine froms tos.
Proof.
  induction froms as [|f0 froms IH]; intros [|t0 tos] [|w0 ws]; cbn; try easy.
  intros [= E1] [= E2]. now rewrite IH.
Qed.

Lemma no_na_perm r l r' :
  no_na_tos r -> Permutation (stored r) (stored r' ++ l) -> no_na_tos r'.
Proof.
  intros H Hp f t w Hi. apply (H f t w). apply (Permutation_in _ (Permutation_sym Hp)).
  apply in_app_iff. now left.
Qed.

Lemma history_conserves r es added gone r' :
  history r es added gone r' -> reachable r -> no_na_tos r ->
  Permutation (map fst (stored r) ++ added) (map fst (stored r') ++ gone).
Proof.
  induction 1 as [r|r froms tos w r1 es added gone r' El Ew Hna Ha _ IH
                 |r reqs disc rows r1 es added gone r' Hs _ IH]; intros Hr Hn.
  - easy.
  - pose proof (add_exact _ _ _ _ _ Hr Ha) as Hp.
    assert (Hn1 : no_na_tos r1).
    { intros f t w' Hi. apply (Permutation_in _ Hp) in Hi. apply in_app_iff in Hi as [Hi|Hi].
      - now apply (Hn f t w').
      - intros ->. apply Hna. exact (In_lines3 _ _ _ _ _ _ Hi). }
    specialize (IH (reach_add _ _ _ _ _ Hr Ha) Hn1). rewrite <- IH.
    rewrite (Permutation_map fst Hp), map_app, (map_fst_lines3 _ _ _ El Ew), app_assoc. easy.
  - destruct (select_one_pop _ _ _ _ _ _ _ Hr Hn (or_introl eq_refl) Hs) as (g & Hp & Eg).
    specialize (IH (reach_select_one _ _ _ _ _ _ _ _ Hr Hs) (no_na_perm _ _ _ Hn Hp)).
    rewrite (Permutation_map fst Hp), map_app, Eg.
    rewrite <- app_assoc, (Permutation_app_comm (sold rows) added), app_assoc, IH.
    rewrite <- app_assoc. now rewrite (Permutation_app_comm gone).
Qed.

Lemma history_no_double_sale r es added gone r' :
  history r es added gone r' -> reachable r -> no_na_tos r ->
  NoDup (map snd (map fst (stored r) ++ added)) -> NoDup (map snd gone).
Proof.
  intros H Hr Hn Hd. pose proof (history_conserves _ _ _ _ _ H Hr Hn) as Hp.
  apply (Permutation_map snd) in Hp. apply (Permutation_NoDup Hp) in Hd.
  rewrite map_app in Hd. now apply NoDup_app_r in Hd.
Qed.

(** C44 *)
Lemma tos_stored_length r f : wf_grouped (grouped r) ->
  length (tos_stored r f) = length (view (grouped r) f).
Proof.
  intros Hw. unfold tos_stored. rewrite map_length, stored_contents.
  rewrite <- (Permutation_length (lview_contents (grouped r) f (proj1 Hw))).
  unfold lview. now rewrite map_length.
Qed.

Lemma select_one_weights r reqs pop disc oto ov rows r' :
  reachable r -> no_na_tos r ->
  select_one r (Some reqs) pop disc oto ov = Ok (rows, r') ->
  forall i f t, In (i, f, t) rows -> t <> VNA -> 2 <= length (tos_stored r f) ->
  match ov with
  | None => exists w, In (f, t, w) (stored r) /\ ~ (w == 0)%Q
  | Some d => exists w, dget t d = Some w /\ ~ (w == 0)%Q
  end.
Proof.
  intros Hr Hna H i f t Hin Ht Hlen. apply reachable_wf in Hr.
  destruct (select_one_spec _ _ _ _ _ _ _ _ Hr H) as (picks & out & HF & Hoff & Hon & -> & _ & _).
  assert (Hincl : incl out picks).
  { destruct oto; [now apply Hon|]. rewrite Hoff by easy. apply incl_refl. }
  apply in_map_iff in Hin as (s & [= <- <- <-] & Hs).
  destruct (Forall2_In_r _ _ _ _ HF (Hincl _ Hs)) as (rq & _ & Hok).
  destruct Hok as (_ & _ & Hok). destruct (s_idx s) as [j|]; [|now destruct Hok].
  destruct Hok as (w & Hn & Hw). rewrite tos_stored_length in Hlen by easy.
  specialize (Hw Hlen). destruct ov; [exact Hw|].
  exists w. split; [|easy]. rewrite stored_contents. apply In_contents; [apply Hr|].
  now apply nth_error_In in Hn.
Qed.

(** C46, C48 *)
Lemma given_to_given i rows : given_to i rows = given rows i.
Proof.
  unfold given. induction rows as [|[j l] rows IH]; cbn; [easy|]. now destruct (keqb i j).
Qed.

Lemma tos_stored_of r f : tos_stored r f = tos_of (contents (grouped r)) f.
Proof. unfold tos_stored, tos_of. now rewrite stored_contents. Qed.

Lemma select_many_rows r reqs pop disc rows r' :
  reachable r -> NoDup (map q_idx reqs) ->
  select_many r reqs pop disc = Ok (rows, r') ->
  NoDup (map fst rows) /\ incl (map fst rows) (map q_idx reqs) /\
  (forall q, In q reqs -> length (given_to (q_idx q) rows) <= q_qty q) /\
  (forall f, f <> VNA -> exists left_over,
     let given := flat_map (fun q => given_to (q_idx q) rows) (requests_from f reqs) in
     Permutation (tos_stored r f) (given ++ left_over) /\
     length given = Nat.min (nsum (map q_qty (requests_from f reqs))) (length (tos_stored r f))) /\
  (disc = false -> Permutation (map fst rows) (map q_idx reqs)).
Proof.
  intros Hr Hd H. apply reachable_wf in Hr.
  destruct (select_many_given _ _ _ _ _ _ Hr Hd H) as (H1 & H2 & H3 & H4 & H5).
  split; [easy|]. split; [easy|]. split; [|split; [|easy]].
  - intros q Hq. rewrite given_to_given. auto.
  - intros f Hf. destruct (H4 f Hf) as (lo & Hp & El). exists lo. cbn zeta.
    rewrite tos_stored_of. change (requests_from f reqs) with (requests_of f reqs).
    rewrite (flat_map_ext (fun q => given_to (q_idx q) rows) (fun q => given rows (q_idx q))).
    + now split.
    + intros q. apply given_to_given.
Qed.

Lemma select_many_na r reqs pop disc rows r' : reachable r -> NoDup (map q_idx reqs) -> select_many r reqs pop disc = Ok (rows, r') ->
  forall q, In q reqs -> q_from q = VNA -> given_to (q_idx q) rows = [].
Proof.
  intros Hr Hd H q Hq Hf. rewrite given_to_given. exact (select_many_missing _ _ _ _ _ _ (reachable_wf _ Hr) Hd H q Hq Hf).
Qed.
Lemma np_delete_incl {A} idxs (l : list A) : incl (np_delete idxs l) l.
Proof.
  unfold np_delete. generalize 0. induction l as [|x l IH]; intros n y Hy; cbn in Hy; [destruct Hy|].
  destruct (existsb (Nat.eqb n) idxs); [right; eapply IH; eauto|]. destruct Hy as [->|Hy]; [now left|right; eapply IH; eauto].
Qed.
Lemma contents_view g f t q : NoDup (dkeys g) -> In (f, t, q) (contents g) <-> In (t, q) (view g f).
Proof.
  intros Nd. unfold contents, view. split.
  - intros H. apply in_flat_map in H as ([k rel] & Hin & H). apply in_map_iff in H as ([t' q'] & E & H). injection E as -> -> ->.
    cbn in *. rewrite (In_dget _ _ _ Nd Hin). exact H.
  - destruct (dget f g) as [rel|] eqn:E; [|intros []]. intros H. apply dget_In in E. apply in_flat_map. exists (f, rel). split; [exact E|]. apply in_map_iff. exists (t, q). split; [reflexivity|exact H].
Qed.
(** select_many never adds relations. *)
Lemma select_many_shrinks r reqs pop disc rows r' : reachable r -> select_many r reqs pop disc = Ok (rows, r') -> incl (stored r') (stored r).
Proof.
  intros Hr H. apply reachable_wf in Hr. pose proof (select_many_wf _ _ _ _ _ _ Hr H) as Hw'. unfold select_many in H. destruct (gather _ _ _) as [all_reqs st1].
  apply bind_ok in H as ([out st2] & _ & E). injection E as _ <-. cbn [grouped] in Hw'. rewrite !stored_contents. cbn [grouped]. destruct pop; [|apply incl_refl].
  intros [[f t] q] Hin. apply (contents_view _ f t q (proj1 Hw')) in Hin. destruct (remove_selected_many_spec (grouped r) out Hr) as [_ Hv]. rewrite Hv in Hin.
  apply (contents_view _ f t q (proj1 Hr)). exact (np_delete_incl _ _ _ Hin).
Qed.

Lemma select_many_pops r reqs disc rows r' :
  reachable r -> NoDup (map q_idx reqs) -> NoDup (map q_from reqs) ->
  ~ In VNA (map q_from reqs) ->
  select_many r reqs true disc = Ok (rows, r') ->
  exists removed,
    Permutation (stored r) (stored r' ++ removed) /\
    Permutation (map fst removed)
      (flat_map (fun q => map (pair (q_from q)) (given_to (q_idx q) rows)) reqs).
Proof.
  intros Hr Hd Hf Hna H. apply reachable_wf in Hr.
  assert (E : known_reqs reqs = reqs).
  { unfold known_reqs. apply filter_all_true. intros q Hq. apply negb_true_iff.
    destruct (q_from q) eqn:E; try easy. exfalso. apply Hna. rewrite <- E. now apply in_map. }
  assert (Hk : NoDup (map q_from (known_reqs reqs))) by now rewrite E.
  destruct (select_many_pop _ _ _ _ _ Hr Hd Hk H) as (_ & removed & Hp & Hm).
  rewrite E in Hm. exists removed. rewrite !stored_contents. split; [easy|].
  rewrite Hm. apply Permutation_refl'. apply flat_map_ext. intros q. now rewrite given_to_given.
Qed.

Lemma select_many_keeps r reqs disc rows r' :
  select_many r reqs false disc = Ok (rows, r') -> stored r' = stored r.
Proof.
  unfold select_many. destruct (gather _ _ _) as [a s]. intros H.
  apply bind_ok in H as ([out st2] & _ & H). now injection H as _ <-.
Qed.

(** C50 *)
Lemma add_grouped_exact r froms lists r' :
  reachable r -> add_grouped_relations r froms lists = Ok r' ->
  Permutation (stored r')
    (stored r ++ flat_map (fun '(f, ts) => map (fun t => (f, t, 1%Q)) ts) (combine froms lists)).
Proof.
  intros Hr H. apply reachable_wf in Hr. rewrite !stored_contents.
  now apply (add_grouped_wf_spec _ _ _ Hr H).
Qed.

(** C51 *)
Lemma filter_filter {A} (p q : A -> bool) l :
  filter p (filter q l) = filter (fun x => q x && p x) l.
Proof.
  induction l as [|x l IH]; cbn; [easy|]. destruct (q x) eqn:E; cbn; [|exact IH].
  rewrite IH. now destruct (p x).
Qed.

Lemma select_all_exact r ids :
  reachable r -> homogeneous r ->
  NoDup (map fst (select_all_horizontal r ids)) /\
  (forall f, In f (map fst (select_all_horizontal r ids)) <-> In f ids /\ exists t, related r f t) /\
  (forall f l, In (f, l) (select_all_horizontal r ids) -> Permutation l (tos_stored r f)).
Proof.
  intros Hr Hh. unfold select_all_horizontal. rewrite map_map.
  pose proof (get_relations_some' r ids Hr Hh) as Hp.
  set (rows := get_relations r (Some ids)) in *.
  rewrite map_id.
  assert (Hk : forall f, In f (uniq (map (fun '(f, _, _) => f) rows)) <-> In f ids /\ exists t, related r f t).
  { intros f. rewrite uniq_In, in_map_iff. split.
    - intros ([[f' t] w] & -> & Hi). apply (Permutation_in _ Hp) in Hi.
      apply filter_In in Hi as [Hi Hm]. apply mem_In in Hm. split; [exact Hm|]. now exists t, w.
    - intros (Hi & t & w & Hs). exists (f, t, w). split; [easy|].
      apply (Permutation_in _ (Permutation_sym Hp)). apply filter_In. split; [easy|]. now apply mem_In. }
  split; [apply uniq_NoDup|]. split; [exact Hk|].
  intros f l Hin. apply in_map_iff in Hin as (f' & [= -> <-] & Hi).
  apply Hk in Hi as (Hi & _). unfold tos_stored.
  assert (E : forall l : list (val * val * Q),
            map (fun '(_, t, _) => t) (filter (fun '(f', _, _) => keqb f' f) l)
            = map (fun x => snd (fst x)) (filter (fun x => keqb (fst (fst x)) f) l)).
  { intros l. induction l as [|[[a b] c] l IH]; cbn; [easy|].
    destruct (keqb a f); cbn; now rewrite IH. }
  rewrite E. apply Permutation_map. rewrite (filter_perm _ _ _ Hp), filter_filter.
  apply Permutation_refl'. apply filter_ext. intros x.
  destruct (keqb_spec (fst (fst x)) f) as [->|]; [|now rewrite andb_false_r].
  now rewrite (proj2 (mem_In _ _) Hi).
Qed.

(** C74 *)
Lemma select_results_ext g g' disc ov reqs : forall st,
  (forall f, dget f g = dget f g') ->
  select_results g disc ov reqs st = select_results g' disc ov reqs st.
Proof.
  induction reqs as [|[i f] reqs IH]; intros st He; cbn [select_results]; [easy|].
  rewrite He. destruct (dget f g') as [rel|].
  - destruct (pick_one rel st ov) as [[p st']|]; cbn; [|easy].
    destruct p as [[idx picked]|]; cbn; now rewrite IH.
  - cbn. now rewrite IH.
Qed.

Lemma forallb_perm {A} (p : A -> bool) l l' :
  (forall x, In x l <-> In x l') -> forallb p l = forallb p l'.
Proof.
  intros H. apply eq_true_iff_eq. rewrite !forallb_forall. split; intros Ha x Hx; apply Ha; now apply H.
Qed.

Lemma select_one_order_independent r1 r2 reqs pop disc oto :
  r_state r1 = r_state r2 ->
  (forall f, dget f (grouped r1) = dget f (grouped r2)) ->
  rmap fst (select_one r1 (Some reqs) pop disc oto None)
  = rmap fst (select_one r2 (Some reqs) pop disc oto None).
Proof.
  intros Es Eg. unfold select_one. cbn [overridden_ok negb].
  rewrite (select_results_ext _ _ _ _ _ _ Eg), Es.
  destruct (select_results _ _ _ _ _) as [[picks st1]|]; cbn; [|easy].
  destruct picks as [|p picks]; [easy|].
  destruct oto; [|easy]. now destruct (one_to_one_filter _ _).
Qed.

Lemma add_relations_ord_id r froms tos w :
  add_relations_ord (fun l => l) r froms tos w = add_relations r froms tos w.
Proof. reflexivity. Qed.

Lemma add_relations_ord_get order r froms tos w r1 r2 :
  (forall l, Permutation (order l) l) ->
  add_relations_ord order r froms tos w = Ok r1 ->
  add_relations r froms tos w = Ok r2 ->
  r_state r1 = r_state r2 /\ forall f, dget f (grouped r1) = dget f (grouped r2).
Proof.
  intros Ho H1 H2. unfold add_relations_ord in H1. unfold add_relations in H2.
  destruct (from_tuples froms tos w) as [d|]; cbn [bind] in *; [|easy].
  apply bind_ok in H1 as (g1 & H1 & [= <-]). apply bind_ok in H2 as (g2 & H2 & [= <-]).
  split; [easy|]. intros f. cbn.
  rewrite (merge_dget _ _ _ _ H2).
  apply (merge_ord_dget _ _ _ _ _ H1). intros k. rewrite <- union_keys_In.
  split; intros Hi; [apply (Permutation_in _ (Ho _)) in Hi; exact Hi|].
  exact (Permutation_in _ (Permutation_sym (Ho _)) Hi).
Qed.

Lemma add_relations_order_independent order1 order2 r froms tos w r1 r2 reqs pop disc oto :
  (forall l, Permutation (order1 l) l) -> (forall l, Permutation (order2 l) l) ->
  add_relations_ord order1 r froms tos w = Ok r1 ->
  add_relations_ord order2 r froms tos w = Ok r2 ->
  rmap fst (select_one r1 (Some reqs) pop disc oto None)
  = rmap fst (select_one r2 (Some reqs) pop disc oto None).
Proof.
  intros Ho1 Ho2 H1 H2.
  assert (exists r0, add_relations r froms tos w = Ok r0) as [r0 H0].
  { unfold add_relations_ord in H1. unfold add_relations.
    destruct (from_tuples froms tos w) as [d|]; cbn [bind] in *; [|easy].
    destruct (merge_total rel_plus (grouped r) d) as [g Hg]. rewrite Hg. cbn. eauto. }
  destruct (add_relations_ord_get _ _ _ _ _ _ _ Ho1 H1 H0) as [E1 G1].
  destruct (add_relations_ord_get _ _ _ _ _ _ _ Ho2 H2 H0) as [E2 G2].
  apply select_one_order_independent; [congruence|]. intros f. now rewrite G1, G2.
Qed.

(** Reformulations used by the property file. *)
Lemma unique_tos_exact r : reachable r ->
  NoDup (unique_tos r) /\ forall t, In t (unique_tos r) <-> exists f, related r f t.
Proof.
  intros Hr. apply reachable_wf in Hr. split; [apply uniq_NoDup|]. intros t.
  rewrite unique_tos_spec by easy. unfold related. now rewrite stored_contents.
Qed.

Lemma select_one_aligned' r reqs pop ov rows r' :
  reachable r ->
  (select_one r (Some reqs) pop false false ov = Ok (rows, r') -> map fst rows = reqs) /\
  (select_one r (Some reqs) pop true false ov = Ok (rows, r') ->
     exists answerable, map fst rows = filter answerable reqs /\
       forall i f, answerable (i, f) = true <-> exists t, related r f t).
Proof.
  assert (E : forall l : list (val * val * val), map (fun '(i, f, _) => (i, f)) l = map fst l).
  { intros l. apply map_ext. now intros [[i f] t]. }
  intros Hr. split; intros H; destruct (select_one_aligned _ _ _ _ _ _ _ Hr H) as (kept & Ek & H1 & H2);
    rewrite E in Ek; rewrite Ek.
  - auto.
  - exists (fun rq => has_relation (grouped r) (snd rq)). split; [auto|].
    intros i f. apply has_relation_related. now apply reachable_wf.
Qed.

Lemma qsum_pos ws w :
  (forall w, In w ws -> (0 <= w)%Q) -> In w ws -> (0 < w)%Q -> (0 < qsum ws)%Q.
Proof.
  induction ws as [|x ws IH]; cbn; [easy|]. intros Hn Hi Hw.
  assert (H0 : (0 <= qsum ws)%Q) by (apply qsum_nonneg; auto).
  assert (Hx : (0 <= x)%Q) by auto.
  destruct Hi as [->|Hi].
  - apply Qlt_le_trans with (w + 0)%Q; [now rewrite Qplus_0_r|]. apply Qplus_le_compat; [apply Qle_refl|easy].
  - apply Qlt_le_trans with (0 + qsum ws)%Q; [rewrite Qplus_0_l; auto|].
    apply Qplus_le_compat; [easy|apply Qle_refl].
Qed.

Lemma select_one_total r froms pop disc oto :
  reachable r ->
  (forall f t w, In (f, t, w) (stored r) -> (0 <= w)%Q) ->
  (forall f, 2 <= length (tos_stored r f) ->
     exists t w, In (f, t, w) (stored r) /\ (0 < w)%Q) ->
  exists rows r', select_one r froms pop disc oto None = Ok (rows, r').
Proof.
  intros Hr Hn Hp. apply reachable_wf in Hr. apply select_one_ok; [easy|].
  intros f rel Hd. destruct (Nat.le_gt_cases (length (to_ids rel)) 1) as [|Hl]; [now left|]. right.
  pose proof (wf_grouped_dget _ _ _ Hr Hd) as [El _].
  assert (Hv : view (grouped r) f = rview rel) by (unfold view; now rewrite Hd).
  assert (Hst : forall t w, In (f, t, w) (stored r) <-> In (t, w) (rview rel)).
  { intros t w. rewrite stored_contents, <- Hv. apply In_contents. apply Hr. }
  assert (Hw : forall w, In w (weights rel) -> (0 <= w)%Q).
  { intros w Hw. destruct (In_nth_error _ _ Hw) as [i Hi].
    assert (exists t, nth_error (to_ids rel) i = Some t) as [t Ht].
    { destruct (nth_error (to_ids rel) i) eqn:E; [eauto|]. apply nth_error_None in E.
      assert (i < length (weights rel)) by (apply nth_error_Some; congruence). lia. }
    apply (Hn f t w). apply Hst. unfold rview.
    destruct (take_some_nth _ (weights rel) _ _ El Ht) as (w' & Hc & Hw').
    assert (w' = w) by congruence. subst. now apply nth_error_In in Hc. }
  split; [easy|].
  destruct (Hp f) as (t & w & Hi & Hw0).
  { rewrite tos_stored_length, Hv by easy. unfold rview. rewrite combine_length. lia. }
  apply Hst in Hi. apply in_combine_r in Hi. intros E.
  pose proof (qsum_pos _ _ Hw Hi Hw0) as Hq. rewrite E in Hq. now apply Qlt_irrefl in Hq.
Qed.

Lemma select_many_quantities r reqs pop disc rows r' :
  reachable r -> NoDup (map q_idx reqs) ->
  select_many r reqs pop disc = Ok (rows, r') ->
  NoDup (map fst rows) /\ incl (map fst rows) (map q_idx reqs) /\
  (forall q, In q reqs -> length (given_to (q_idx q) rows) <= q_qty q) /\
  (forall f, f <> VNA -> exists left_over,
     let given := flat_map (fun q => given_to (q_idx q) rows) (requests_from f reqs) in
     Permutation (tos_stored r f) (given ++ left_over) /\
     length given = Nat.min (nsum (map q_qty (requests_from f reqs))) (length (tos_stored r f))).
Proof. intros Hr Hd H. pose proof (select_many_rows _ _ _ _ _ _ Hr Hd H). tauto. Qed.

Lemma select_many_all_requests r reqs pop rows r' :
  reachable r -> NoDup (map q_idx reqs) ->
  select_many r reqs pop false = Ok (rows, r') ->
  Permutation (map fst rows) (map q_idx reqs).
Proof. intros Hr Hd H. now apply (select_many_rows _ _ _ _ _ _ Hr Hd H). Qed.
