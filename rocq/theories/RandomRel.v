(** How relationships choose: which random number decides which request, and how. *)
From Verif Require Import Base BaseFacts Rng RngFacts Utils UtilsFacts Relationship RelationshipFacts
  RelationshipSelect SpecRelationship RelationshipProps SpecRandom RandomFacts.
From Coq Require Import Qround Qabs Lqa.
Local Open Scope nat_scope.

Lemma stored_from_view r f : reachable r -> stored_from r f = view (grouped r) f.
Proof.
  intros Hr. destruct (reachable_wf _ Hr) as [Hnd _]. unfold stored_from, stored, view.
  induction (grouped r) as [|[k rel] g IH]; cbn [flat_map dget fst snd]; [reflexivity|].
  inversion Hnd as [|? ? Hn Hnd']; subst. rewrite filter_app, map_app.
  assert (E : forall l, map (fun x : val * val * Q => (snd (fst x), snd x))
              (filter (fun x => keqb (fst (fst x)) f) (map (fun tw : val * Q => (k, fst tw, snd tw)) l)) =
              if keqb k f then l else []).
  { induction l as [|[t w] l IHl]; cbn [map filter fst snd]; [now destruct (keqb k f)|].
    destruct (keqb_spec k f) as [->|N]; [cbn [map fst snd]; now rewrite IHl|exact IHl]. }
  rewrite E, (IH Hnd'). destruct (keqb_spec k f) as [->|N].
  - rewrite keqb_refl. destruct (dget f g) eqn:Ed; [|apply app_nil_r].
    apply dget_Some_key in Ed. contradiction.
  - destruct (keqb_spec f k); [congruence|]. reflexivity.
Qed.

Lemma tos_stored_from r f : tos_stored r f = map fst (stored_from r f).
Proof. unfold tos_stored, stored_from. rewrite map_map. reflexivity. Qed.

(** One pick *)
Lemma pick_one_selects rel st ov p st' :
  rel_wf rel -> pick_one rel st ov = Ok (p, st') ->
  if 2 <=? length (rview rel) then
    drawn 1 st st' /\
    exists i t, p = Some (i, t) /\
      ((forall t' w, In (t', w) (weighted ov (rview rel)) -> (0 <= w)%Q) ->
       proper_weights (map snd (weighted ov (rview rel))) /\
       selects (weighted ov (rview rel)) (coming st 0) t)
  else st' = st.
Proof.
  intros [El En]. unfold pick_one.
  assert (Hlen : length (rview rel) = length (to_ids rel))
    by (unfold rview; rewrite combine_length; lia).
  rewrite Hlen. destruct (to_ids rel) as [|t1 [|t2 ts]] eqn:Et; [now intros [= _ <-]|now intros [= _ <-]|].
  change (2 <=? length (t1 :: t2 :: ts)) with true. cbv iota. rewrite <- Et in *. intros H.
  assert (H1 : (0 < length (to_ids rel))%nat) by (rewrite Et; cbn; lia). clear Et t1 t2 ts.
  apply bind_ok in H as (proba & Hp & H). apply bind_ok in H as ([idxs st1] & Hc & H).
  assert (Ew : exists ws, proba = normalise ws /\ map snd (weighted ov (rview rel)) = ws).
  { destruct ov as [d|].
    - apply bind_ok in Hp as (ws & Hws & [= <-]). exists ws. split; [reflexivity|].
      cbn [weighted]. rewrite map_map. cbn [snd]. apply mapr_ok_Forall2 in Hws. clear -Hws El.
      unfold rview. revert Hws El. generalize (to_ids rel) as tos, (weights rel) as qs.
      intros tos qs Hws. revert qs. induction Hws as [|t w ts ws H0 _ IH]; intros qs Hq; [now destruct qs|].
      destruct qs as [|q qs]; [discriminate|]. cbn [combine map fst]. injection Hq as Hq.
      f_equal; [|now apply IH]. destruct (dget t d); congruence.
    - injection Hp as <-. exists (weights rel). split; [exact En|]. cbn [weighted]. unfold rview.
      apply map_snd_combine. lia. }
  destruct Ew as (ws & -> & Ew).
  assert (Ef : map fst (weighted ov (rview rel)) = to_ids rel).
  { assert (E0 : map fst (rview rel) = to_ids rel) by (unfold rview; apply map_fst_combine; lia).
    destruct ov; cbn [weighted]; [rewrite map_map; cbn [fst]|]; exact E0. }
  assert (Hnn : (qsum ws == 0)%Q -> False).
  { intros Z. unfold normalise in Hc. apply Qeq_bool_iff in Z. rewrite Z in Hc.
    unfold choice_p in Hc. destruct (_ && _); [discriminate|]. destruct (negb _) eqn:E; [discriminate|].
    rewrite map_length in E. destruct ws as [|w ws]; [cbn in E; destruct (length (to_ids rel)); [lia|discriminate]|].
    discriminate. }
  assert (Hmap : normalise ws = map Some (map (fun w => w / qsum ws)%Q ws)).
  { unfold normalise. destruct (Qeq_bool (qsum ws) 0) eqn:E; [apply Qeq_bool_iff in E; now apply Hnn in E|].
    now rewrite map_map. }
  rewrite Hmap in Hc. apply choice_p_designates in Hc as (_ & _ & Hd & Hl & Hi).
  destruct idxs as [|i idxs]; [easy|]. destruct (nth_error (to_ids rel) i) as [t|] eqn:Ei; [|easy].
  injection H as <- <-. split; [exact Hd|]. exists i, t. split; [reflexivity|]. intros Hpos. rewrite Ew.
  assert (Hws : forall w, In w ws -> (0 <= w)%Q).
  { intros w Hw. rewrite <- Ew in Hw. apply in_map_iff in Hw as ([t' w'] & E & Hw). cbn in E. subst w'. eauto. }
  assert (Hs : (0 < qsum ws)%Q).
  { pose proof (qsum_nonneg _ Hws) as H0. apply Qle_lt_or_eq in H0 as [H0|H0]; [exact H0|].
    exfalso. apply Hnn. now symmetry. }
  split; [now split|]. exists i. rewrite Ew, Ef. split; [|exact Ei].
  apply (designates_scaled ws (qsum ws) _ _ Hs). apply Hi. reflexivity.
Qed.

Definition undec (g : dict val relations) (reqs : list (val * val)) : nat :=
  length (filter (fun rq => 2 <=? length (view g (snd rq))) reqs).

Lemma select_results_drawn g discard ov reqs : forall st rows st',
  wf_grouped g -> select_results g discard ov reqs st = Ok (rows, st') -> drawn (undec g reqs) st st'.
Proof.
  intros st rows st' Hw. revert st rows st'. induction reqs as [|[ri f] reqs IH]; cbn [select_results];
    intros st rows st' H; [injection H as _ <-; apply drawn_0|].
  apply bind_ok in H as ([row st1] & H1 & H). apply bind_ok in H as ([rows2 st2] & H2 & [= _ <-]).
  apply IH in H2. unfold undec in *. cbn [filter snd].
  assert (D : drawn (if 2 <=? length (view g f) then 1 else 0) st st1).
  { unfold view. destruct (dget f g) as [rel|] eqn:E.
    - apply bind_ok in H1 as ([p st3] & Hp & H1).
      apply pick_one_selects in Hp; [|exact (wf_grouped_dget _ _ _ Hw E)].
      assert (E1 : st3 = st1) by (destruct p as [[? ?]|]; injection H1 as _ E1; exact E1). subst st3.
      destruct (2 <=? length (rview rel)); [tauto|subst; apply drawn_0].
    - injection H1 as _ <-. apply drawn_0. }
  eapply drawn_trans in H2; [|exact D]. destruct (2 <=? length (view g f)); exact H2.
Qed.

Lemma select_results_app g discard ov a b st :
  select_results g discard ov (a ++ b) st =
  (let! (rows1, st1) := select_results g discard ov a st in
   let! (rows2, st2) := select_results g discard ov b st1 in Ok (rows1 ++ rows2, st2)).
Proof.
  revert st. induction a as [|[ri f] a IH]; intros st; cbn [select_results app].
  - cbn [bind]. destruct (select_results _ _ _ b st) as [[? ?]|]; reflexivity.
  - set (one := match dget f g with Some rel => _ | None => _ end). destruct one as [[row st1]|e]; [|reflexivity].
    cbn [bind]. rewrite IH. destruct (select_results _ _ _ a st1) as [[rows1 st2]|e]; [|reflexivity].
    cbn [bind]. destruct (select_results _ _ _ b st2) as [[rows2 st3]|e]; [|reflexivity].
    cbn [bind]. now rewrite app_assoc.
Qed.

Lemma select_results_selects g ov reqs st rows st' j s :
  wf_grouped g -> select_results g false ov reqs st = Ok (rows, st') ->
  nth_error rows j = Some s -> 2 <= length (view g (s_from s)) ->
  (forall t' w, In (t', w) (weighted ov (view g (s_from s))) -> (0 <= w)%Q) ->
  proper_weights (map snd (weighted ov (view g (s_from s)))) /\
  selects (weighted ov (view g (s_from s))) (coming st (undec g (firstn j reqs))) (s_to s).
Proof.
  intros Hw H Hj H2 Hnn.
  assert (Hlen : length rows = length reqs).
  { pose proof (select_results_spec _ _ _ _ _ _ _ Hw H) as F. apply Forall2_length in F. rewrite <- F.
    now rewrite filter_all_true. }
  assert (Hjl : j < length reqs) by (rewrite <- Hlen; apply nth_error_Some; congruence).
  destruct (nth_error reqs j) as [[ri f]|] eqn:Er; [|apply nth_error_None in Er; lia].
  rewrite <- (firstn_skipn j reqs) in H. rewrite select_results_app in H.
  apply bind_ok in H as ([rows1 st1] & H1 & H). apply bind_ok in H as ([rows2 st2] & Hr & [= <- _]).
  assert (L1 : length rows1 = j).
  { pose proof (select_results_spec _ _ _ _ _ _ _ Hw H1) as F. apply Forall2_length in F. rewrite <- F.
    rewrite filter_all_true by reflexivity. apply firstn_length_le. lia. }
  rewrite nth_error_app2 in Hj by lia. rewrite L1, Nat.sub_diag in Hj.
  pose proof (select_results_drawn _ _ _ _ _ _ _ Hw H1) as D.
  assert (Es : skipn j reqs = (ri, f) :: skipn (S j) reqs).
  { clear -Er. revert j Er. induction reqs as [|x l IH]; intros [|j] E; try discriminate; cbn in *; [congruence|now apply IH]. }
  rewrite Es in Hr. cbn [select_results] in Hr.
  apply bind_ok in Hr as ([row st3] & H3 & Hr). apply bind_ok in Hr as ([rows3 st4] & _ & [= <- _]).
  unfold view in *. destruct (dget f g) as [rel|] eqn:E.
  - apply bind_ok in H3 as ([p st5] & Hp & H3). pose proof (wf_grouped_dget _ _ _ Hw E) as Hwf.
    apply pick_one_selects in Hp; [|exact Hwf].
    destruct p as [[i t]|]; injection H3 as <- _; cbn in Hj; injection Hj as <-; cbn [s_from s_to] in *; rewrite E in *.
    + destruct (2 <=? length (rview rel)) eqn:E2; [|apply Nat.leb_gt in E2; lia].
      destruct Hp as (_ & i' & t' & [= <- <-] & Hp). destruct (Hp Hnn) as [Hp1 Hp2]. split; [exact Hp1|].
      rewrite (coming_drawn _ _ _ 0 D), Nat.add_0_r in Hp2. exact Hp2.
    + destruct (2 <=? length (rview rel)) eqn:E2; [|apply Nat.leb_gt in E2; lia].
      destruct Hp as (_ & i' & t' & C & _). discriminate.
  - injection H3 as <- _. cbn in Hj. injection Hj as <-. cbn [s_from] in *. rewrite E in H2. cbn in H2. lia.
Qed.

Lemma undecided_undec r reqs : reachable r -> undecided r reqs = undec (grouped r) reqs.
Proof.
  intros Hr. unfold undec. induction reqs as [|[i f] reqs IH]; [reflexivity|].
  cbn [undecided filter snd]. rewrite IH, tos_stored_from, map_length, stored_from_view by exact Hr.
  destruct (2 <=? _); reflexivity.
Qed.

(** ** The call *)

Lemma select_one_selects r reqs pop ov rows r' :
  reachable r -> select_one r (Some reqs) pop false false ov = Ok (rows, r') ->
  drawn (undecided r reqs) (r_state r) (r_state r') /\
  forall j i f t, nth_error rows j = Some (i, f, t) -> 2 <= length (tos_stored r f) ->
    (forall t' w, In (t', w) (weighted ov (stored_from r f)) -> (0 <= w)%Q) ->
    proper_weights (map snd (weighted ov (stored_from r f))) /\
    selects (weighted ov (stored_from r f)) (coming (r_state r) (undecided r (firstn j reqs))) t.
Proof.
  intros Hr. unfold select_one. destruct (negb _); [discriminate|]. intros H.
  apply bind_ok in H as ([out st1] & Hs & H). pose proof (reachable_wf _ Hr) as Hw.
  assert (E : match out with [] => ([], st1) | _ :: _ => (out, st1) end = (out, st1)) by now destruct out.
  rewrite E in H. injection H as <- <-. cbn [r_state].
  rewrite undecided_undec by exact Hr. split; [exact (select_results_drawn _ _ _ _ _ _ _ Hw Hs)|].
  intros j i f t Hj H2 Hnn. rewrite undecided_undec by exact Hr.
  rewrite tos_stored_from, map_length in H2. rewrite stored_from_view in * by exact Hr.
  rewrite nth_error_map in Hj. destruct (nth_error out j) as [s|] eqn:Es; [|discriminate].
  cbn in Hj. injection Hj as <- <- <-. eapply select_results_selects; eauto.
Qed.

(** discard_empty only drops the blank rows. *)
Definition answered (s : sel) : bool := match s_idx s with Some _ => true | None => false end.

Lemma select_results_discard g ov reqs : forall st,
  select_results g true ov reqs st =
  (let! (rows, st') := select_results g false ov reqs st in Ok (filter answered rows, st')).
Proof.
  induction reqs as [|[ri f] reqs IH]; intros st; cbn [select_results]; [reflexivity|].
  assert (E : match dget f g with
              | Some rel => let! (p, st') := pick_one rel st ov in
                  match p with
                  | None => Ok ([], st')
                  | Some (idx, picked) => Ok ([mkSel ri f (Some idx) picked], st')
                  end
              | None => Ok ([], st)
              end = let! (row, st1) := match dget f g with
              | Some rel => let! (p, st') := pick_one rel st ov in
                  match p with
                  | None => Ok ([mkSel ri f None VNA], st')
                  | Some (idx, picked) => Ok ([mkSel ri f (Some idx) picked], st')
                  end
              | None => Ok ([mkSel ri f None VNA], st)
              end in Ok (filter answered row, st1)).
  { destruct (dget f g) as [rel|]; [|reflexivity].
    destruct (pick_one rel st ov) as [[[[idx t]|] st1]|]; reflexivity. }
  rewrite E. clear E. set (one := match dget f g with Some rel => _ | None => _ end).
  destruct one as [[row st1]|]; [|reflexivity]. cbn [bind]. rewrite IH.
  destruct (select_results g false ov reqs st1) as [[rows st2]|]; [|reflexivity].
  cbn [bind]. now rewrite filter_app.
Qed.

Lemma select_one_discard r reqs pop ov rows r' :
  reachable r -> no_na_tos r ->
  select_one r (Some reqs) pop true false ov = Ok (rows, r') <->
  exists rows0, select_one r (Some reqs) pop false false ov = Ok (rows0, r') /\
    rows = filter (fun x => negb (is_na (snd x))) rows0.
Proof.
  intros Hr Hna. unfold select_one. destruct (negb _); [split; [discriminate|intros (? & ? & _); discriminate]|].
  rewrite select_results_discard.
  destruct (select_results (grouped r) false ov reqs (r_state r)) as [[out st]|] eqn:E;
    [|cbn [bind]; split; [discriminate|intros (? & ? & _); discriminate]].
  cbn [bind]. pose proof (select_results_spec _ _ _ _ _ _ _ (reachable_wf _ Hr) E) as F.
  assert (Ef : map (fun s => (s_req s, s_from s, s_to s)) (filter answered out) =
               filter (fun x : val * val * val => negb (is_na (snd x))) (map (fun s => (s_req s, s_from s, s_to s)) out)).
  { clear E. revert F. generalize (filter (fun rq : val * val => negb false || has_relation (grouped r) (snd rq)) reqs).
    induction out as [|s out IH]; intros l F; [reflexivity|]. inversion F as [|rq ? l' ? H1 F']; subst. specialize (IH _ F').
    cbn [filter map snd]. destruct H1 as (_ & _ & H1). unfold answered at 1. destruct (s_idx s) as [i|].
    - destruct H1 as (w & Hn & _). assert (N : is_na (s_to s) = false).
      { destruct (is_na (s_to s)) eqn:Ena; [|reflexivity]. exfalso. destruct (s_to s) eqn:Et; try discriminate.
        apply nth_error_In in Hn. rewrite <- stored_from_view in Hn by exact Hr. unfold stored_from in Hn.
        apply in_map_iff in Hn as ([[f' t'] w'] & E1 & Hn). apply filter_In in Hn as [Hn _].
        cbn in E1. injection E1 as -> ->. exact (Hna _ _ _ Hn eq_refl). }
      rewrite N. cbn [negb map]. now rewrite IH.
    - destruct H1 as (_ & ->). cbn [is_na negb]. exact IH. }
  assert (Eo : forall l : list sel, match l with [] => ([], st) | _ :: _ => (l, st) end = (l, st)) by now intros [|].
  rewrite !Eo, Ef. clear F.
  assert (Er : remove_selected_one (grouped r) (filter answered out) = remove_selected_one (grouped r) out).
  { unfold remove_selected_one. change (fun s => match s_idx s with Some _ => true | None => false end) with answered.
    assert (Ei : filter answered (filter answered out) = filter answered out).
    { apply filter_all_true. intros x Hx. now apply filter_In in Hx. }
    now rewrite Ei. }
  rewrite Er. split.
  - intros [= <- <-]. eexists. split; reflexivity.
  - intros (rows0 & [= <- <-] & ->). reflexivity.
Qed.

(** Requests can be split into several calls. *)
Lemma select_one_app r a b discard ov rows r' :
  select_one r (Some (a ++ b)) false discard false ov = Ok (rows, r') <->
  exists rows1 r1 rows2,
    select_one r (Some a) false discard false ov = Ok (rows1, r1) /\
    select_one r1 (Some b) false discard false ov = Ok (rows2, r') /\ rows = rows1 ++ rows2.
Proof.
  assert (Eo : forall (st : rng) (l : list sel), match l with [] => ([], st) | _ :: _ => (l, st) end = (l, st)) by now intros st [|].
  unfold select_one. destruct (negb (overridden_ok r ov)) eqn:Eov.
  { split; [discriminate|intros (? & ? & ? & ? & _); discriminate]. }
  rewrite select_results_app. destruct (select_results _ _ _ a _) as [[out1 st1]|] eqn:E1; cbn [bind].
  2:{ split; [discriminate|intros (? & ? & ? & ? & _); discriminate]. }
  rewrite Eo. split.
  - intros H. apply bind_ok in H as ([out st] & H & H'). apply bind_ok in H as ([out2 st2] & E2 & [= <- <-]).
    rewrite Eo in H'. injection H' as <- <-. eexists _, _, _. split; [reflexivity|].
    cbn [grouped r_state r_seed overridden_ok unique_tos].
    change (overridden_ok (mkRelationship (r_seed r) st1 (grouped r)) ov) with (overridden_ok r ov).
    rewrite Eov, E2. cbn [bind]. rewrite Eo. split; [reflexivity|]. apply map_app.
  - intros (rows1 & r1 & rows2 & [= <- <-] & H & ->).
    change (overridden_ok (mkRelationship (r_seed r) st1 (grouped r)) ov) with (overridden_ok r ov) in H.
    rewrite Eov in H. cbn [grouped r_state r_seed] in H. apply bind_ok in H as ([out2 st2] & E2 & H).
    rewrite Eo in H. injection H as <- <-. rewrite E2. cbn [bind]. rewrite Eo. now rewrite map_app.
Qed.
