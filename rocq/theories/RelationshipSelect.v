(** Facts about get_relations, select_one, select_many and select_all. *)
From Verif Require Import Base BaseFacts Rng RngFacts Utils UtilsFacts Relationship RelationshipFacts.
From Coq Require Import Lqa.

(** ** get_relations *)

(** ids of one kind: all strings, or no string (see [np_unify]). *)
Definition one_kind (l : list (val * val * Q)) : Prop :=
  (forall f t w, In (f, t, w) l -> is_str f = true /\ is_str t = true) \/
  (forall f t w, In (f, t, w) l -> is_str f = false /\ is_str t = false).

Lemma np_unify_one_kind l : one_kind l -> np_unify l = l.
Proof.
  intros [H|H]; unfold np_unify.
  - destruct (existsb _ l); [|easy]. rewrite <- (map_id l) at 2. apply map_ext_in.
    intros [[f t] w] Hi. destruct (H _ _ _ Hi) as [H1 H2]. destruct f, t; easy.
  - destruct (existsb _ l) eqn:E; [|easy]. apply existsb_exists in E as ([[f t] w] & Hi & E).
    destruct (H _ _ _ Hi) as [E1 E2]. cbn in E. rewrite E1, E2 in E. easy.
Qed.

Lemma one_kind_incl l1 l2 : incl l1 l2 -> one_kind l2 -> one_kind l1.
Proof. intros Hi [H|H]; [left|right]; intros f t w Hx; apply (H _ _ _ (Hi _ Hx)). Qed.

Definition raw_relations (g : dict val relations) (ids : list val) : list (val * val * Q) :=
  flat_map (fun gid => match dget gid g with Some rel => rel_triples gid rel | None => [] end) ids.

Lemma filter_flat_map {A B} (p : B -> bool) (f : A -> list B) l :
  filter p (flat_map f l) = flat_map (fun x => filter p (f x)) l.
Proof. induction l as [|x l IH]; cbn; [easy|]. now rewrite filter_app, IH. Qed.

Lemma raw_relations_lview g ids f :
  NoDup ids -> lview (raw_relations g ids) f = if mem f ids then view g f else [].
Proof.
  unfold raw_relations. induction 1 as [|x ids Hx Hd IH]; cbn [flat_map mem existsb]; [easy|].
  rewrite lview_app, IH. fold (mem f ids).
  assert (E : lview match dget x g with Some rel => rel_triples x rel | None => [] end f
              = if keqb f x then view g f else []).
  { unfold view. destruct (keqb_spec f x) as [->|Hn].
    - destruct (dget x g) as [rel|]; [|easy]. unfold lview, rel_triples, rview.
      induction (combine (to_ids rel) (weights rel)) as [|[t w] l IHl]; cbn; [easy|].
      rewrite keqb_refl. cbn. now f_equal.
    - destruct (dget x g) as [rel|]; [|easy]. unfold lview, rel_triples.
      induction (combine (to_ids rel) (weights rel)) as [|[t w] l IHl]; cbn; [easy|].
      destruct (keqb_spec x f); [congruence|easy]. }
  rewrite E. destruct (keqb_spec f x) as [->|Hn]; cbn; [|easy].
  apply mem_not_In in Hx. rewrite Hx. apply app_nil_r.
Qed.

Lemma raw_relations_perm g ids :
  NoDup (dkeys g) -> NoDup ids ->
  Permutation (raw_relations g ids) (filter (fun x => mem (fst (fst x)) ids) (contents g)).
Proof.
  intros Hg Hd. apply (Permutation_count_occ triple_dec). intros [[f t] w].
  rewrite !count_lview. apply (Permutation_count_occ pair_dec).
  rewrite raw_relations_lview by easy.
  rewrite (lview_filter_pairs _ _ (fun _ => mem f ids)) by easy.
  destruct (mem f ids).
  - rewrite filter_all_true by easy. now rewrite lview_contents.
  - induction (lview (contents g) f); cbn; easy.
Qed.

Lemma get_relations_some r ids :
  NoDup (dkeys (grouped r)) -> one_kind (contents (grouped r)) ->
  Permutation (get_relations r (Some ids))
    (filter (fun x => mem (fst (fst x)) ids) (contents (grouped r))).
Proof.
  intros Hg Hk. unfold get_relations. fold (raw_relations (grouped r) (uniq ids)).
  pose proof (raw_relations_perm _ (uniq ids) Hg (uniq_NoDup ids)) as Hp.
  rewrite np_unify_one_kind.
  - rewrite Hp. apply Permutation_refl'. apply filter_ext. intros [[f t] w]. cbn.
    apply eq_true_iff_eq. rewrite !mem_In. apply uniq_In.
  - eapply one_kind_incl; [|apply Hk]. intros x Hx. apply (Permutation_in _ Hp) in Hx.
    now apply filter_In in Hx.
Qed.

Lemma get_relations_none r :
  NoDup (dkeys (grouped r)) -> one_kind (contents (grouped r)) ->
  Permutation (get_relations r None) (contents (grouped r)).
Proof.
  intros Hg Hk. change (get_relations r None) with (get_relations r (Some (dkeys (grouped r)))).
  rewrite get_relations_some by easy. apply Permutation_refl'. apply filter_all_true.
  intros [[f t] w] Hi. cbn. apply mem_In. unfold contents in Hi.
  apply in_flat_map in Hi as ([k rel] & Hk' & Hi). unfold rel_triples in Hi.
  apply in_map_iff in Hi as ([t' w'] & [= <- <- <-] & _). cbn. now apply (in_map fst) in Hk'.
Qed.

Lemma view_length g f : wf_grouped g ->
  length (view g f) = match dget f g with Some rel => length (to_ids rel) | None => 0 end.
Proof.
  intros Hw. unfold view. destruct (dget f g) as [rel|] eqn:E; [|easy].
  destruct (wf_grouped_dget _ _ _ Hw E) as [El _]. unfold rview. rewrite combine_length. lia.
Qed.

Lemma neighbourhood_size_spec r f :
  wf_grouped (grouped r) ->
  neighbourhood_size r f
  = length (filter (fun x => keqb (fst (fst x)) f) (contents (grouped r))).
Proof.
  intros Hw. unfold neighbourhood_size.
  transitivity (length (view (grouped r) f)).
  - rewrite view_length by easy. easy.
  - rewrite <- (lview_contents _ _ (proj1 Hw)). unfold lview. apply map_length.
Qed.

Lemma unique_tos_spec r t :
  wf_grouped (grouped r) ->
  (In t (unique_tos r) <-> exists f w, In (f, t, w) (contents (grouped r))).
Proof.
  intros Hw. unfold unique_tos. rewrite uniq_In, in_flat_map. split.
  - intros ([f rel] & Hi & Ht). cbn in Ht.
    assert (El : length (weights rel) = length (to_ids rel)).
    { destruct Hw as [_ Hw]. rewrite Forall_forall in Hw. apply (Hw _ Hi). }
    rewrite <- (map_fst_combine (to_ids rel) (weights rel)) in Ht by lia.
    apply in_map_iff in Ht as ([t' w] & E & Ht). cbn in E. subst t'. exists f, w.
    unfold contents. apply in_flat_map. exists (f, rel). split; [easy|].
    unfold rel_triples. apply in_map_iff. now exists (t, w).
  - intros (f & w & Hi). unfold contents in Hi. apply in_flat_map in Hi as ([k rel] & Hk & Hi).
    exists (k, rel). split; [easy|]. unfold rel_triples in Hi.
    apply in_map_iff in Hi as ([t' w'] & [= _ <- _] & Hi). cbn. now apply in_combine_l in Hi.
Qed.

(** ** Picking *)
Lemma take_some_nth {A B} (l : list A) (l2 : list B) i x :
  length l2 = length l -> nth_error l i = Some x ->
  exists w, nth_error (combine l l2) i = Some (x, w) /\ nth_error l2 i = Some w.
Proof.
  revert l2 i; induction l as [|a l IH]; intros [|b l2] [|i]; cbn; try easy.
  - intros _ [= ->]. eauto.
  - intros [= El] Hi. now apply IH.
Qed.

Definition picked_weight_ok (n : nat) (w : Q) : Prop := 2 <= n -> ~ (w == 0)%Q.

Lemma normalise_pos ws i q :
  nth_error (normalise ws) i = Some (Some q) -> (0 < q)%Q ->
  exists w, nth_error ws i = Some w /\ ~ (w == 0)%Q /\
            ((forall w', In w' ws -> (0 <= w')%Q) -> (0 < w)%Q).
Proof.
  unfold normalise. set (s := qsum ws). rewrite nth_error_map.
  destruct (nth_error ws i) as [w|] eqn:E; [|easy]. cbn.
  destruct (Qeq_bool s 0) eqn:Es; [easy|]. intros [= <-] Hq. exists w. split; [easy|].
  assert (Hw : ~ (w == 0)%Q).
  { intros Hc. rewrite Hc in Hq. unfold Qdiv in Hq. rewrite Qmult_0_l in Hq. now apply Qlt_irrefl in Hq. }
  split; [easy|]. intros Hp. apply nth_error_In in E. specialize (Hp w E).
  apply Qle_lt_or_eq in Hp. destruct Hp; [easy|]. exfalso. apply Hw. now symmetry.
Qed.

(** one pick: a stored relation of the group, of non-zero weight when there is a choice. *)
Lemma pick_one_spec rel st ov p st' :
  rel_wf rel -> pick_one rel st ov = Ok (p, st') ->
  match p with
  | None => rview rel = []
  | Some (i, t) => exists w, nth_error (rview rel) i = Some (t, w) /\
      (2 <= length (rview rel) ->
       match ov with
       | None => ~ (w == 0)%Q
       | Some d => exists wo, dget t d = Some wo /\ ~ (wo == 0)%Q
       end)
  end.
Proof.
  intros [El En]. unfold pick_one.
  assert (Hlen : length (rview rel) = length (to_ids rel))
    by (unfold rview; rewrite combine_length; lia).
  destruct (to_ids rel) as [|t1 [|t2 ts]] eqn:Et.
  - intros [= <- _]. unfold rview. now rewrite Et.
  - intros [= <- _]. unfold rview. rewrite Et. destruct (weights rel) as [|w ws]; [easy|].
    exists w. split; [easy|]. intros Hl. cbn in Hl. lia.
  - rewrite <- Et in *. clear Et t1 t2 ts. intros H.
    apply bind_ok in H as (proba & Hp & H). apply bind_ok in H as ([idxs st1] & Hc & H).
    destruct idxs as [|i idxs]; [easy|].
    destruct (nth_error (to_ids rel) i) as [t|] eqn:Ei; [|easy]. injection H as <- _.
    destruct (take_some_nth _ (weights rel) _ _ El Ei) as (w & Hw & Hw2).
    exists w. split; [easy|]. intros _.
    apply choice_p_spec in Hc as [_ Hf]. inversion Hf as [|? ? (q & Hq & Hpos) _]; subst.
    destruct ov as [d|].
    + apply bind_ok in Hp as (ws & Hws & [= <-]).
      destruct (normalise_pos _ _ _ Hq Hpos) as (wo & Hwo & Hnz & _).
      exists wo. split; [|easy]. clear -Hws Hwo Ei.
      apply mapr_ok_Forall2 in Hws. revert i Hwo Ei.
      induction Hws as [|t0 w0 ts ws H0 _ IH]; intros [|i]; cbn; try easy.
      * intros [= <-] [= ->]. destruct (dget t d); congruence.
      * apply IH.
    + injection Hp as <-. rewrite En in Hq.
      destruct (normalise_pos _ _ _ Hq Hpos) as (wo & Hwo & Hnz & _). congruence.
Qed.

Definition weights_pickable (ws : list Q) : Prop :=
  (forall w, In w ws -> (0 <= w)%Q) /\ ~ (qsum ws == 0)%Q.

Lemma qsum_nonneg ws : (forall w, In w ws -> (0 <= w)%Q) -> (0 <= qsum ws)%Q.
Proof.
  induction ws as [|w ws IH]; cbn; intros H; [lra|].
  assert (0 <= w)%Q by auto. assert (0 <= qsum ws)%Q by auto. lra.
Qed.

Lemma qsum_map_div ws s : (qsum (map (fun w => w / s) ws) == qsum ws / s)%Q.
Proof.
  induction ws as [|w ws IH]; cbn.
  - unfold Qdiv. now rewrite Qmult_0_l.
  - rewrite IH. unfold Qdiv. ring.
Qed.

Lemma choice_p_normalise n ws r :
  length ws = n -> weights_pickable ws -> exists i r', choice_p n 1 (normalise ws) r = Ok ([i], r').
Proof.
  intros Hn [Hp Hs]. unfold choice_p.
  assert (Hn0 : n <> 0) by (intros ->; destruct ws; [now apply Hs|easy]).
  destruct (Nat.eqb_spec n 0) as [|_]; [easy|]. cbn [andb].
  unfold normalise. rewrite map_length, Hn, Nat.eqb_refl. cbn [negb].
  destruct (Qeq_bool (qsum ws) 0) eqn:E; [now apply Qeq_bool_iff in E|].
  assert (Hmap : map (fun w => Some (w / qsum ws)%Q) ws = map Some (map (fun w => w / qsum ws)%Q ws))
    by now rewrite map_map.
  rewrite Hmap. replace (no_nan _) with (Ok (map (fun w => w / qsum ws)%Q ws))
    by (symmetry; now apply no_nan_Some).
  cbn [bind].
  assert (Hpos : (0 < qsum ws)%Q).
  { pose proof (qsum_nonneg _ Hp) as H0. apply Qle_lt_or_eq in H0 as [H0|H0]; [easy|].
    exfalso. apply Hs. now symmetry. }
  replace (existsb _ _) with false.
  - assert (Es : (qsum (map (fun w => w / qsum ws) ws) == 1)%Q).
    { rewrite qsum_map_div. field. easy. }
    apply Qeq_bool_iff in Es. rewrite Es. cbn [negb draws].
    destruct (choice_p_one _ r) as [i r1]. eauto.
  - symmetry. apply not_true_is_false. rewrite existsb_exists. intros (q & Hq & Hneg).
    apply in_map_iff in Hq as (w & <- & Hw). apply Qltb_lt in Hneg. apply Hp in Hw.
    assert (0 <= w / qsum ws)%Q.
    { unfold Qdiv. apply Qmult_le_0_compat; [easy|]. apply Qlt_le_weak, Qinv_lt_0_compat, Hpos. }
    lra.
Qed.

Lemma pick_one_ok rel st :
  rel_wf rel -> length (to_ids rel) <= 1 \/ weights_pickable (weights rel) ->
  exists p st', pick_one rel st None = Ok (p, st').
Proof.
  intros [El En] Hp. unfold pick_one.
  destruct (to_ids rel) as [|t1 [|t2 ts]] eqn:Et; eauto.
  rewrite <- Et in *. destruct Hp as [Hp|Hp]; [rewrite Et in Hp; cbn in Hp; lia|].
  cbn [bind]. rewrite En.
  destruct (choice_p_normalise (length (to_ids rel)) (weights rel) st) as (i & r' & E); [easy|easy|].
  rewrite E. cbn [bind].
  assert (Hi : i < length (to_ids rel)).
  { apply choice_p_index_lt in E. now inversion E. }
  apply nth_error_Some in Hi. destruct (nth_error (to_ids rel) i); [|easy]. eauto.
Qed.

(** ** select_results *)

(** What a row may be, for a request (index, from) against the stored relations. *)
Definition row_ok (g : dict val relations) (ov : option (dict val Q)) (rq : val * val) (s : sel) : Prop :=
  s_req s = fst rq /\ s_from s = snd rq /\
  match s_idx s with
  | Some i => exists w, nth_error (view g (s_from s)) i = Some (s_to s, w) /\
      (2 <= length (view g (s_from s)) ->
       match ov with
       | None => ~ (w == 0)%Q
       | Some d => exists wo, dget (s_to s) d = Some wo /\ ~ (wo == 0)%Q
       end)
  | None => view g (s_from s) = [] /\ s_to s = VNA
  end.

Definition has_relation (g : dict val relations) (f : val) : bool :=
  match view g f with [] => false | _ => true end.

Lemma select_results_spec g discard ov reqs st rows st' :
  wf_grouped g ->
  select_results g discard ov reqs st = Ok (rows, st') ->
  Forall2 (row_ok g ov) (filter (fun rq => negb discard || has_relation g (snd rq)) reqs) rows.
Proof.
  intros Hw. revert st rows st'. induction reqs as [|[ri f] reqs IH]; cbn [select_results filter];
    intros st rows st' H; [injection H as <- _; constructor|].
  apply bind_ok in H as ([row st1] & H1 & H). apply bind_ok in H as ([rows2 st2] & H2 & [= <- _]).
  apply IH in H2. cbn [snd].
  assert (Hrow : if negb discard || has_relation g f
                 then exists s, row = [s] /\ row_ok g ov (ri, f) s else row = []).
  { unfold has_relation. unfold row_ok, view. destruct (dget f g) as [rel|] eqn:E.
    - apply bind_ok in H1 as ([p st3] & Hp & H1).
      apply pick_one_spec in Hp; [|exact (wf_grouped_dget _ _ _ Hw E)].
      destruct p as [[i t]|].
      + injection H1 as <- _. destruct Hp as (w & Hn & Hwt).
        destruct (rview rel) as [|x l] eqn:Ev; [now destruct i|].
        rewrite orb_true_r. eexists. split; [reflexivity|]. cbn. rewrite E, Ev. eauto.
      + rewrite Hp. injection H1 as <- _. destruct discard; cbn; [easy|].
        eexists. split; [reflexivity|]. cbn. now rewrite E.
    - injection H1 as <- _. destruct discard; cbn; [easy|].
      eexists. split; [reflexivity|]. cbn. now rewrite E. }
  destruct (negb discard || has_relation g f).
  - destruct Hrow as (s & -> & Hs). cbn. now constructor.
  - subst row. easy.
Qed.

Lemma select_results_ok g discard reqs st :
  wf_grouped g ->
  (forall f rel, dget f g = Some rel ->
     length (to_ids rel) <= 1 \/ weights_pickable (weights rel)) ->
  exists rows st', select_results g discard None reqs st = Ok (rows, st').
Proof.
  intros Hw Hp. revert st. induction reqs as [|[ri f] reqs IH]; intros st; cbn [select_results]; [eauto|].
  destruct (dget f g) as [rel|] eqn:E.
  - destruct (pick_one_ok rel st) as (p & st1 & ->); [exact (wf_grouped_dget _ _ _ Hw E)|eauto|].
    cbn [bind]. destruct p as [[i t]|]; cbn [bind]; destruct (IH st1) as (rows & st2 & ->); cbn; eauto.
  - cbn [bind]. destruct (IH st) as (rows & st2 & ->); cbn; eauto.
Qed.

(** ** one to one *)
Lemma loc_rows_perm {A} (lab : A -> val) labels rows :
  NoDup (map lab rows) -> Permutation labels (map lab rows) ->
  Permutation (loc_rows lab labels rows) rows.
Proof.
  intros Hd Hp.
  assert (E : Permutation (loc_rows lab labels rows) (loc_rows lab (map lab rows) rows)).
  { unfold loc_rows. clear Hd. induction Hp as [|x l1 l2 _ IH|x y l|l1 l2 l3 _ IH1 _ IH2]; cbn.
    - easy.
    - now apply Permutation_app_head.
    - rewrite !app_assoc. apply Permutation_app_tail, Permutation_app_comm.
    - now rewrite IH1. }
  rewrite E. clear E Hp labels. unfold loc_rows. induction rows as [|x rows IH]; cbn; [easy|].
  inversion Hd as [|? ? Hx Hd']; subst.
  rewrite keqb_refl.
  assert (E1 : filter (fun s => keqb (lab s) (lab x)) rows = []).
  { clear -Hx. induction rows as [|y rows IH]; cbn; [easy|]. cbn in Hx.
    destruct (keqb_spec (lab y) (lab x)) as [E|]; [exfalso; auto|]. apply IH. auto. }
  rewrite E1. cbn. constructor.
  assert (E2 : flat_map (fun l => if keqb (lab x) l then x :: filter (fun s => keqb (lab s) l) rows
                                  else filter (fun s => keqb (lab s) l) rows) (map lab rows)
               = flat_map (fun l => filter (fun s => keqb (lab s) l) rows) (map lab rows)).
  { assert (Hl : forall l, In l (map lab rows) -> lab x <> l) by (intros l Hl E; apply Hx; now rewrite E).
    revert Hl. generalize (map lab rows) as ls. intros ls.
    induction ls as [|l ls IHl]; cbn; intros Hl; [easy|].
    destruct (keqb_spec (lab x) l) as [El|]; [exfalso; apply (Hl l); auto|].
    f_equal. apply IHl. auto. }
  rewrite E2. now apply IH.
Qed.

Lemma loc_rows_In {A} (lab : A -> val) labels rows x :
  In x (loc_rows lab labels rows) <-> In x rows /\ In (lab x) labels.
Proof.
  unfold loc_rows. rewrite in_flat_map. split.
  - intros (l & Hl & Hx). apply filter_In in Hx as [Hx E]. apply keqb_eq in E. now subst.
  - intros [Hx Hl]. exists (lab x). split; [easy|]. apply filter_In. now rewrite keqb_refl.
Qed.

Lemma dedup_to_spec l : forall seen,
  NoDup (map s_to (dedup_to seen l)) /\
  (forall s, In s (dedup_to seen l) -> In s l /\ ~ In (s_to s) seen) /\
  (forall t, In t (map s_to l) -> ~ In t seen -> In t (map s_to (dedup_to seen l))).
Proof.
  induction l as [|s l IH]; intros seen; cbn.
  - split; [constructor|]. split; easy.
  - destruct (mem (s_to s) seen) eqn:E.
    + apply mem_In in E. destruct (IH seen) as (H1 & H2 & H3). split; [easy|]. split.
      * intros s' Hs'. apply H2 in Hs' as [? ?]. auto.
      * intros t [<-|Ht] Hn; [easy|]. auto.
    + apply mem_not_In in E. destruct (IH (s_to s :: seen)) as (H1 & H2 & H3). cbn. split; [|split].
      * constructor; [|easy]. rewrite in_map_iff. intros (s' & Es & Hs'). apply H2 in Hs' as [_ Hn].
        apply Hn. cbn. auto.
      * intros s' [<-|Hs']; [auto|]. apply H2 in Hs' as [Hi Hn]. cbn in Hn. auto.
      * intros t [<-|Ht] Hn; [auto|].
        destruct (key_dec (s_to s) t) as [->|Hne]; [auto|]. right. apply H3; [easy|].
        cbn. intros [?|?]; auto.
Qed.

Definition blank (s : sel) : bool := is_na (s_to s).

Lemma one_to_one_spec out st out' st' :
  one_to_one_filter out st = (out', st') ->
  NoDup (map s_to (filter (fun s => negb (blank s)) out')) /\
  incl out' out /\
  filter blank out' = filter blank out /\
  (forall t, In t (map s_to (filter (fun s => negb (blank s)) out)) ->
             In t (map s_to (filter (fun s => negb (blank s)) out'))).
Proof.
  unfold one_to_one_filter. destruct (permutation _ st) as [perm st1] eqn:Ep.
  intros [= <- _]. apply permutation_perm in Ep.
  set (present := filter (fun s => negb (is_na (s_to s))) out) in *.
  set (blanks := filter (fun s => is_na (s_to s)) out).
  destruct (dedup_to_spec (loc_rows s_req perm present) []) as (H1 & H2 & H3).
  set (D := dedup_to [] (loc_rows s_req perm present)) in *.
  assert (HD : forall s, In s D -> In s present).
  { intros s Hs. apply H2 in Hs as [Hs _]. now apply loc_rows_In in Hs. }
  assert (Hbf : filter (fun s => negb (blank s)) blanks = []).
  { unfold blanks, blank. clear. induction out as [|s out IH]; cbn; [easy|].
    destruct (is_na (s_to s)) eqn:E; cbn; [now rewrite E|easy]. }
  assert (HDp : filter (fun s => negb (blank s)) D = D).
  { apply filter_all_true. intros s Hs. apply HD in Hs. now apply filter_In in Hs. }
  rewrite !filter_app, Hbf, HDp, app_nil_r. repeat split.
  - easy.
  - intros s Hs. apply in_app_iff in Hs as [Hs|Hs].
    + apply HD in Hs. now apply filter_In in Hs.
    + now apply filter_In in Hs.
  - assert (E0 : filter blank D = []).
    { rewrite <- HDp. clear. induction D as [|s D IH]; cbn; [easy|].
      destruct (blank s) eqn:E; cbn; [easy|now rewrite E]. }
    rewrite E0. cbn. unfold blanks, blank. clear.
    induction out as [|s out IH]; cbn; [easy|].
    destruct (is_na (s_to s)) eqn:E; cbn; rewrite ?E; [now f_equal|easy].
  - intros t Ht. apply H3; [|easy]. fold present in Ht. unfold blank in Ht. fold present in Ht.
    apply in_map_iff in Ht as (s & <- & Hs). apply in_map. apply loc_rows_In. split; [easy|].
    apply (Permutation_in _ (Permutation_sym Ep)). now apply in_map.
Qed.

(** ** removal *)
Lemma delete_from_filter {A} idxs (l : list A) (d : A) : forall i,
  delete_from i idxs l
  = map (fun j => nth (j - i) l d) (filter (fun j => negb (existsb (Nat.eqb j) idxs)) (seq i (length l))).
Proof.
  induction l as [|x l IH]; intros i; cbn [delete_from length seq filter]; [easy|].
  assert (Hm : forall js, (forall j, In j js -> S i <= j) ->
               map (fun j => nth (j - S i) l d) js = map (fun j => nth (j - i) (x :: l) d) js).
  { intros js Hj. apply map_ext_in. intros j Hin. apply Hj in Hin.
    replace (j - i) with (S (j - S i)) by lia. easy. }
  rewrite IH. rewrite Hm by (intros j Hj; apply filter_In in Hj as [Hj _]; apply in_seq in Hj; lia).
  destruct (existsb (Nat.eqb i) idxs); cbn [negb]; [easy|].
  cbn [map]. rewrite Nat.sub_diag. easy.
Qed.

Lemma take_map_nth {A} idxs (l l' : list A) d :
  take idxs l = Ok l' -> l' = map (fun j => nth j l d) idxs.
Proof.
  rewrite take_nth. induction 1 as [|i x is xs Hi _ IH]; cbn; [easy|]. rewrite IH. f_equal.
  symmetry. now apply nth_error_nth.
Qed.

Lemma take_lt {A} idxs (l l' : list A) : take idxs l = Ok l' -> Forall (fun i => i < length l) idxs.
Proof.
  rewrite take_nth. induction 1 as [|i x is xs Hi _ IH]; constructor; [|easy].
  apply nth_error_Some. congruence.
Qed.

Lemma perm_delete {A} idxs (l picked : list A) :
  NoDup idxs -> take idxs l = Ok picked -> Permutation l (np_delete idxs l ++ picked).
Proof.
  intros Hd Ht. destruct l as [|d l0] eqn:El.
  - apply take_lt in Ht as Hlt. destruct idxs as [|i idxs]; [|inversion Hlt; cbn in *; lia].
    cbn in Ht. injection Ht as <-. easy.
  - rewrite <- El in *. clear El l0. pose proof (take_lt _ _ _ Ht) as Hlt.
    rewrite (take_map_nth _ _ _ d Ht). unfold np_delete.
    rewrite (delete_from_filter idxs l d 0).
    assert (E2 : map (fun j => nth j l d) idxs = map (fun j => nth (j - 0) l d) idxs).
    { apply map_ext. intros j. now rewrite Nat.sub_0_r. }
    rewrite E2, <- map_app.
    assert (El : l = map (fun j => nth (j - 0) l d) (seq 0 (length l))).
    { clear. transitivity (map (fun j => nth j l d) (seq 0 (length l))).
      - induction l as [|x l IH]; cbn; [easy|]. f_equal. rewrite <- seq_shift, map_map. exact IH.
      - apply map_ext. intros j. now rewrite Nat.sub_0_r. }
    etransitivity; [rewrite El at 1; reflexivity|]. apply Permutation_map.
    apply NoDup_Permutation; [apply seq_NoDup| |].
    + apply NoDup_app_intro; [apply NoDup_filter, seq_NoDup|easy|].
      intros j Hj Hi. apply filter_In in Hj as [_ Hj]. apply negb_true_iff in Hj.
      assert (existsb (Nat.eqb j) idxs = true); [|congruence].
      apply existsb_exists. exists j. now rewrite Nat.eqb_refl.
    + intros j. rewrite in_app_iff, filter_In, negb_true_iff.
      destruct (existsb (Nat.eqb j) idxs) eqn:E.
      * apply existsb_exists in E as (k & Hk & E). apply Nat.eqb_eq in E. subst k.
        split; [tauto|]. intros _. apply in_seq. rewrite Forall_forall in Hlt. apply Hlt in Hk. lia.
      * split; [tauto|]. intros [[? _]|Hj]; [easy|]. exfalso.
        assert (existsb (Nat.eqb j) idxs = true); [|congruence].
        apply existsb_exists. exists j. now rewrite Nat.eqb_refl.
Qed.

Lemma np_delete_nil {A} (l : list A) : np_delete [] l = l.
Proof.
  unfold np_delete. generalize 0. induction l as [|x l IH]; intros i; cbn; [easy|]. now f_equal.
Qed.

Lemma remove_inplace_wf rel idxs : rel_wf rel -> rel_wf (remove_inplace rel idxs).
Proof.
  intros [H _]. split; [|easy]. cbn. now apply delete_from_length.
Qed.

Lemma rview_remove rel idxs : rel_wf rel -> rview (remove_inplace rel idxs) = np_delete idxs (rview rel).
Proof.
  intros [H _]. unfold rview, remove_inplace, np_delete. cbn. symmetry. now apply delete_from_combine.
Qed.

Lemma remove_group_spec g f idxs :
  wf_grouped g ->
  wf_grouped (remove_group g f idxs) /\
  forall f', view (remove_group g f idxs) f' =
             if keqb f' f then np_delete idxs (view g f') else view g f'.
Proof.
  intros Hw. unfold remove_group. destruct (dget f g) as [rel|] eqn:E.
  - assert (Hr := wf_grouped_dget _ _ _ Hw E).
    pose proof (remove_inplace_wf rel idxs Hr) as Hr'.
    destruct (Nat.eqb_spec (rel_len (remove_inplace rel idxs)) 0) as [E0|E0].
    + split.
      * apply wf_grouped_intro; [apply ddel_NoDup, Hw|]. intros f' rel'. rewrite dget_ddel.
        destruct (keqb f' f); [easy|]. intros E'. exact (wf_grouped_dget _ _ _ Hw E').
      * intros f'. unfold view. rewrite dget_ddel. destruct (keqb_spec f' f) as [->|]; [|easy].
        rewrite E, <- rview_remove by easy. unfold rview, rel_len in *.
        destruct (to_ids (remove_inplace rel idxs)); easy.
    + split.
      * apply wf_grouped_intro; [apply dset_NoDup, Hw|]. intros f' rel'. rewrite dget_dset.
        destruct (keqb f' f); [now intros [= <-]|]. intros E'. exact (wf_grouped_dget _ _ _ Hw E').
      * intros f'. unfold view. rewrite dget_dset. destruct (keqb_spec f' f) as [->|]; [|easy].
        now rewrite E, <- rview_remove.
  - split; [easy|]. intros f'. unfold view. destruct (keqb_spec f' f) as [->|]; [|easy]. now rewrite E.
Qed.

Lemma remove_fold_spec (ix : val -> list nat) fs : forall g,
  wf_grouped g -> NoDup fs ->
  let g' := fold_left (fun g f => remove_group g f (ix f)) fs g in
  wf_grouped g' /\
  forall f', view g' f' = if mem f' fs then np_delete (ix f') (view g f') else view g f'.
Proof.
  induction fs as [|f fs IH]; intros g Hw Hd; cbn; [easy|].
  inversion Hd as [|? ? Hn Hd']; subst.
  destruct (remove_group_spec g f (ix f) Hw) as [Hw1 Hv1].
  destruct (IH _ Hw1 Hd') as [Hw2 Hv2]. split; [easy|]. intros f'. rewrite Hv2, Hv1.
  fold (mem f' fs). destruct (keqb_spec f' f) as [->|]; cbn; [|easy].
  apply mem_not_In in Hn. now rewrite Hn.
Qed.

Definition sels_of (f : val) (out : list sel) : list sel := filter (fun s => keqb (s_from s) f) out.

Lemma remove_selected_one_spec g out :
  wf_grouped g ->
  wf_grouped (remove_selected_one g out) /\
  forall f, view (remove_selected_one g out) f = np_delete (idx_list (sels_of f out)) (view g f).
Proof.
  intros Hw. unfold remove_selected_one.
  set (present := filter _ out).
  set (ix := fun f => idx_list (filter (fun s => keqb (s_from s) f) present)).
  destruct (remove_fold_spec ix (uniq (map s_from present)) g Hw (uniq_NoDup _)) as [H1 H2].
  split; [exact H1|]. intros f.
  assert (Eix : ix f = idx_list (sels_of f out)).
  { unfold ix, present, sels_of, idx_list. clear. induction out as [|s out IH]; cbn; [easy|].
    destruct (s_idx s) eqn:E; cbn; destruct (keqb (s_from s) f); cbn; rewrite ?E; cbn; now rewrite IH. }
  rewrite <- Eix. etransitivity; [apply H2|].
  destruct (mem f (uniq (map s_from present))) eqn:E; [easy|].
  replace (ix f) with (@nil nat); [now rewrite np_delete_nil|].
  apply mem_not_In in E. rewrite uniq_In in E. unfold ix. clear -E.
  induction present as [|s present IH]; cbn in *; [easy|].
  destruct (keqb_spec (s_from s) f); [exfalso; auto|]. apply IH. auto.
Qed.

(** The stored triple a row refers to. *)
Definition row_triple (g : dict val relations) (s : sel) : list (val * val * Q) :=
  match s_idx s with
  | Some i => match nth_error (view g (s_from s)) i with
              | Some (t, w) => [(s_from s, t, w)]
              | None => []
              end
  | None => []
  end.
Definition row_valid (g : dict val relations) (s : sel) : Prop :=
  match s_idx s with
  | Some i => exists w, nth_error (view g (s_from s)) i = Some (s_to s, w)
  | None => True
  end.

Lemma row_ok_valid g ov rq s : row_ok g ov rq s -> row_valid g s.
Proof.
  unfold row_ok, row_valid. intros (_ & _ & H). destruct (s_idx s); [|easy].
  destruct H as (w & H & _). eauto.
Qed.

Lemma take_rows g f out :
  Forall (row_valid g) out ->
  take (idx_list (sels_of f out)) (view g f) = Ok (lview (flat_map (row_triple g) out) f).
Proof.
  intros Hv. apply take_nth. induction Hv as [|s out Hs _ IH]; cbn [sels_of filter idx_list flat_map]; [constructor|].
  rewrite lview_app. destruct (keqb_spec (s_from s) f) as [E|Hn].
  - cbn. apply Forall2_app; [|easy]. unfold row_triple, row_valid in *.
    destruct (s_idx s) as [i|]; [|constructor]. destruct Hs as [w Hs]. rewrite E in *. rewrite Hs.
    unfold lview. cbn. rewrite keqb_refl. cbn. now repeat constructor.
  - replace (lview (row_triple g s) f) with (@nil (val * Q)); [easy|].
    unfold row_triple. destruct (s_idx s) as [i|]; [|easy].
    destruct (nth_error (view g (s_from s)) i) as [[t w]|]; [|easy].
    unfold lview. cbn. destruct (keqb_spec (s_from s) f); easy.
Qed.

Lemma remove_conserves g g' out :
  wf_grouped g -> wf_grouped g' ->
  (forall f, view g' f = np_delete (idx_list (sels_of f out)) (view g f)) ->
  Forall (row_valid g) out ->
  (forall f, NoDup (idx_list (sels_of f out))) ->
  Permutation (contents g) (contents g' ++ flat_map (row_triple g) out).
Proof.
  intros Hw Hw' Hv Hr Hd. apply contents_perm; [apply Hw|]. intros f.
  rewrite lview_app, lview_contents by apply Hw'. rewrite Hv.
  apply perm_delete; [apply Hd|]. now apply take_rows.
Qed.

(** Without any assumption on repeated positions: only selected relations disappear. *)
Lemma delete_incl {A} idxs (l : list A) : forall i x, In x (delete_from i idxs l) -> In x l.
Proof.
  induction l as [|y l IH]; intros i x; cbn; [easy|].
  destruct (existsb _ _); cbn; [intros H; right; eauto|].
  intros [->|H]; [auto|right; eauto].
Qed.
