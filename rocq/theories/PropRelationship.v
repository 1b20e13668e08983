(** Properties C36-C51, C74 about relationships (relationship.py).
    Vocabulary: SpecRelationship.v ([stored], [reachable], [related], [sold], [history], ...). *)
From Verif Require Import Base BaseFacts Rng Utils Relationship SpecRelationship RelationshipProps
  RelationshipFacts RelationshipSelect RelationshipMany RelationshipOverride Samples.

(** C36: add_relations adds exactly the given lines. *)
Theorem C36_add_relations_exact :
  forall r froms tos w r',
    reachable r -> add_relations r froms tos w = Ok r' ->
    Permutation (stored r') (stored r ++ lines3 froms tos (weights_list (length froms) w)).
Proof. exact add_exact. Qed.
Print Assumptions C36_add_relations_exact.

Theorem C36_add_relations_total :
  forall r froms tos w,
    length froms <= length tos -> length froms <= length (weights_list (length froms) w) ->
    exists r', add_relations r froms tos w = Ok r'.
Proof. exact add_relations_ok. Qed.
Print Assumptions C36_add_relations_total.

Example C36_example :
  reachable shop /\
  exists r', add_relations shop [s_ "C"; s_ "A"] [s_ "u"; s_ "x"] (WScalar 3) = Ok r' /\
    length (stored r') = 6 /\ related r' (s_ "C") (s_ "u").
Proof.
  split; [exact shop_reachable|]. apply (ok_ex1 empty_rel); [reflexivity|].
  split; [vm_compute; reflexivity|]. exists 3%Q. vm_compute. auto 8.
Qed.

(** C37 is false of the code as it is: removing relations of an unknown "from" ADDS relations. *)
Theorem C37_remove_relations_refuted :
  exists r froms tos r' f t,
    reachable r /\ remove_relations r froms tos = Ok r' /\
    In (f, t) (combine froms tos) /\ ~ related r f t /\ related r' f t.
Proof.
  exists empty_rel, [s_ "A"], [s_ "x"].
  eexists. exists (s_ "A"), (s_ "x").
  split; [apply reach_new|]. split; [reflexivity|].
  split; [now left|]. split.
  - intros [w Hw]. vm_compute in Hw. exact Hw.
  - exists 0%Q. vm_compute. auto.
Qed.
Print Assumptions C37_remove_relations_refuted.

(** What is true: exactly the listed pairs go, and each listed pair whose "from" had no relation
    at all may come in as a "ghost" relation of weight 0. *)
Theorem C37_remove_relations_exact :
  forall r froms tos r',
    reachable r -> length froms = length tos -> remove_relations r froms tos = Ok r' ->
    exists kept gone ghosts,
      Permutation (stored r) (kept ++ gone) /\
      Permutation (stored r') (kept ++ ghosts) /\
      (forall x, In x kept -> ~ In (fst x) (combine froms tos)) /\
      (forall x, In x gone -> In (fst x) (combine froms tos)) /\
      (forall f t w, In (f, t, w) ghosts ->
         In (f, t) (combine froms tos) /\ w = 0%Q /\ isolated r f).
Proof. exact remove_exact. Qed.
Print Assumptions C37_remove_relations_exact.

(** When every listed "from" has relations the property holds as stated. *)
Theorem C37_remove_relations_partial :
  forall r froms tos r',
    reachable r -> length froms = length tos ->
    (forall f, In f froms -> exists t, related r f t) ->
    remove_relations r froms tos = Ok r' ->
    (forall f t, In (f, t) (combine froms tos) -> ~ related r' f t) /\
    exists gone,
      Permutation (stored r) (stored r' ++ gone) /\
      (forall f t w, In (f, t, w) gone -> In (f, t) (combine froms tos)).
Proof. exact remove_known. Qed.
Print Assumptions C37_remove_relations_partial.

Example C37_example :
  reachable shop /\ (forall f, In f [s_ "A"; s_ "B"] -> exists t, related shop f t) /\
  exists r', remove_relations shop [s_ "A"; s_ "B"] [s_ "x"; s_ "q"] = Ok r' /\ length (stored r') = 3.
Proof.
  split; [exact shop_reachable|]. split.
  - intros f [<-|[<-|[]]]; [exists (s_ "x"), 1%Q|exists (s_ "y"), 2%Q]; vm_compute; auto.
  - apply (ok_ex1 empty_rel); vm_compute; reflexivity.
Qed.

(** C38: whatever is done through the API, ids and weights stay aligned and the normalised
    weights are the weights divided by their sum (NaN when the sum is 0). *)
Theorem C38_relations_well_formed :
  forall r, reachable r ->
    NoDup (map fst (grouped r)) /\
    forall f rel, In (f, rel) (grouped r) ->
      length (weights rel) = length (to_ids rel) /\
      length (weights_normed rel) = length (weights rel) /\
      forall i w, nth_error (weights rel) i = Some w ->
        nth_error (weights_normed rel) i
        = Some (if Qeq_bool (fold_right Qplus 0%Q (weights rel)) 0 then None
                else Some (w / fold_right Qplus 0 (weights rel))%Q).
Proof. exact wf_normal. Qed.
Print Assumptions C38_relations_well_formed.

Example C38_example :
  exists rows r',
    select_one shop (Some [(s_ "i", s_ "A"); (s_ "j", s_ "B")]) true true true None = Ok (rows, r') /\
    (reachable shop -> reachable r') /\
    exists rows2 r2, select_many r' [mkReq (s_ "i") (s_ "A") 1] true true = Ok (rows2, r2) /\
      (reachable r' -> reachable r2) /\ length (stored r2) = 1.
Proof.
  apply (ok_ex no_rows); [reflexivity|]. split.
  - intros H. eapply reach_select_one; [exact H|]. apply (ok_eq no_rows). reflexivity.
  - apply (ok_ex no_rows); [reflexivity|]. split; [|vm_compute; reflexivity].
    intros H. eapply reach_select_many; [exact H|]. apply (ok_eq no_rows). reflexivity.
Qed.

(** C39: get_relations / get_neighbourhood_size / unique_tos show what is stored. *)
Theorem C39_get_relations_partial :
  forall r, reachable r -> homogeneous r ->
    Permutation (get_relations r None) (stored r) /\
    forall ids, Permutation (get_relations r (Some ids))
                  (filter (fun x => mem (fst (fst x)) ids) (stored r)).
Proof.
  exact (fun r Hr Hh => conj (get_relations_none' r Hr Hh) (fun ids => get_relations_some' r ids Hr Hh)).
Qed.
Print Assumptions C39_get_relations_partial.

(** The restriction to homogeneous ids is needed: with number froms and string tos the froms
    come back as strings. *)
Theorem C39_get_relations_refuted :
  exists r f t w, reachable r /\ In (f, t, w) (stored r) /\ ~ In (f, t, w) (get_relations r None).
Proof.
  exists (ok_or empty_rel (add_relations empty_rel [VNum (Q2Qc 1)] [s_ "x"] (WScalar 1))),
    (VNum (Q2Qc 1)), (s_ "x"), 1%Q.
  split; [eapply (reach_add empty_rel [VNum (Q2Qc 1)] [s_ "x"] (WScalar 1));
          [apply reach_new|reflexivity]|].
  split; [now left|]. vm_compute. intros [H|[]]. discriminate H.
Qed.
Print Assumptions C39_get_relations_refuted.

Theorem C39_neighbourhood_size :
  forall r ids f, reachable r ->
    (In f ids -> exists n, dget f (get_neighbourhood_size r ids) = Some n) /\
    (forall n, dget f (get_neighbourhood_size r ids) = Some n ->
       In f ids /\ n = length (tos_stored r f)).
Proof.
  exact (fun r ids f Hr => conj (neighbourhood_all r ids f) (fun n => neighbourhood_count r ids f n Hr)).
Qed.
Print Assumptions C39_neighbourhood_size.

Theorem C39_unique_tos :
  forall r, reachable r ->
    NoDup (unique_tos r) /\ forall t, In t (unique_tos r) <-> exists f, related r f t.
Proof. exact unique_tos_exact. Qed.
Print Assumptions C39_unique_tos.

Example C39_example :
  reachable shop /\ homogeneous shop /\
  get_neighbourhood_size shop [s_ "A"; s_ "Z"; s_ "A"] = [(s_ "A", 3); (s_ "Z", 0)].
Proof.
  split; [exact shop_reachable|]. split; [exact shop_homogeneous|]. vm_compute. reflexivity.
Qed.

(** C40: every row of select_one answers a request, with a related id, or with None when the
    from has no relation and discard_empty is False. *)
Theorem C40_select_one_rows :
  forall r reqs pop discard oto ov rows r',
    reachable r -> select_one r (Some reqs) pop discard oto ov = Ok (rows, r') ->
    forall i f t, In (i, f, t) rows ->
      In (i, f) reqs /\
      (related r f t \/ (isolated r f /\ t = VNA /\ discard = false)).
Proof. exact select_one_rows. Qed.
Print Assumptions C40_select_one_rows.

(** Without one_to_one there is one row per request, in order: all of them when
    discard_empty is False, those whose from has a relation when it is True. *)
Theorem C40_select_one_aligned :
  forall r reqs pop ov rows r',
    reachable r ->
    (select_one r (Some reqs) pop false false ov = Ok (rows, r') ->
       map fst rows = reqs) /\
    (select_one r (Some reqs) pop true false ov = Ok (rows, r') ->
       exists answerable, map fst rows = filter answerable reqs /\
         forall i f, answerable (i, f) = true <-> exists t, related r f t).
Proof. exact select_one_aligned'. Qed.
Print Assumptions C40_select_one_aligned.

Theorem C40_select_one_succeeds :
  forall r froms pop discard oto,
    reachable r ->
    (forall f t w, In (f, t, w) (stored r) -> (0 <= w)%Q) ->
    (forall f, 2 <= length (tos_stored r f) ->
       exists t w, In (f, t, w) (stored r) /\ (0 < w)%Q) ->
    exists rows r', select_one r froms pop discard oto None = Ok (rows, r').
Proof. exact select_one_total. Qed.
Print Assumptions C40_select_one_succeeds.

Example C40_example :
  reachable shop /\
  exists rows r',
    select_one shop (Some [(s_ "i", s_ "A"); (s_ "j", s_ "Q"); (s_ "k", s_ "B")]) false false false None
    = Ok (rows, r') /\
    rows = [(s_ "i", s_ "A", s_ "z"); (s_ "j", s_ "Q", VNA); (s_ "k", s_ "B", s_ "y")].
Proof. split; [exact shop_reachable|]. apply (ok_ex no_rows); vm_compute; reflexivity. Qed.

Example C40_example_succeeds :
  (forall f t w, In (f, t, w) (stored shop) -> (0 <= w)%Q) /\
  (forall f, 2 <= length (tos_stored shop f) ->
     exists t w, In (f, t, w) (stored shop) /\ (0 < w)%Q).
Proof.
  split.
  - intros f t w H. vm_compute in H.
    repeat (destruct H as [[= <- <- <-]|H]; [now apply Qle_bool_iff|]). easy.
  - intros f H. destruct (keqb_spec f (s_ "A")) as [->|HA].
    + exists (s_ "x"), 1%Q. split; [vm_compute; auto|reflexivity].
    + exfalso. unfold tos_stored in H.
      assert (E : length (filter (fun x => keqb (fst (fst x)) f) (stored shop)) <= 1).
      { change (stored shop) with [(s_ "A", s_ "x", 1%Q); (s_ "A", s_ "z", 1%Q); (s_ "A", s_ "t", 0%Q);
                                   (s_ "B", s_ "y", 2%Q)].
        cbn [filter fst]. destruct (keqb_spec (s_ "A") f); [congruence|].
        now destruct (keqb (s_ "B") f); cbn; auto. }
      rewrite map_length in H. lia.
Qed.

(** With overridden weights, a single related to id without a weight makes the call raise... *)
Theorem C40_override_incomplete :
  forall r froms pop discard oto d,
    reachable r -> (exists f t, related r f t /\ dget t d = None) ->
    select_one r froms pop discard oto (Some d) = Err AssertionError.
Proof. exact override_incomplete. Qed.
Print Assumptions C40_override_incomplete.

(** ...and a call with a weight for every related to id succeeds, whatever the stored weights. *)
Theorem C40_override_succeeds :
  forall r froms pop discard oto d,
    reachable r ->
    (forall f t, related r f t -> exists w, dget t d = Some w /\ (0 <= w)%Q) ->
    (forall f, 2 <= length (tos_stored r f) ->
       exists t w, related r f t /\ dget t d = Some w /\ (0 < w)%Q) ->
    exists rows r', select_one r froms pop discard oto (Some d) = Ok (rows, r').
Proof. exact override_succeeds. Qed.
Print Assumptions C40_override_succeeds.

Example C40_example_override :
  let short := [(s_ "x", 1%Q); (s_ "y", 1%Q); (s_ "z", 1%Q)] in
  let full := (s_ "t", 5%Q) :: short in
  (exists f t, related shop f t /\ dget t short = None) /\
  (forall f t, related shop f t -> exists w, dget t full = Some w /\ (0 <= w)%Q) /\
  (forall f, 2 <= length (tos_stored shop f) ->
     exists t w, related shop f t /\ dget t full = Some w /\ (0 < w)%Q).
Proof.
  split; [|split].
  - exists (s_ "A"), (s_ "t"). split; [exists 0%Q; vm_compute; auto|reflexivity].
  - intros f t (w & H). vm_compute in H.
    repeat (destruct H as [[= <- <- <-]|H]; [eexists; split; [reflexivity|now apply Qle_bool_iff]|]). easy.
  - intros f H. exists (s_ "x"), 1%Q. split; [|split; reflexivity].
    destruct (keqb_spec f (s_ "A")) as [->|HA]; [exists 1%Q; vm_compute; auto|].
    exfalso. unfold tos_stored in H.
    assert (E : length (filter (fun x => keqb (fst (fst x)) f) (stored shop)) <= 1).
    { change (stored shop) with [(s_ "A", s_ "x", 1%Q); (s_ "A", s_ "z", 1%Q); (s_ "A", s_ "t", 0%Q);
                                 (s_ "B", s_ "y", 2%Q)].
      cbn [filter fst]. destruct (keqb_spec (s_ "A") f); [congruence|].
      now destruct (keqb (s_ "B") f); cbn; auto. }
    rewrite map_length in H. lia.
Qed.

(** C41: with one_to_one no to id occurs twice; compared with the same call without one_to_one
    (same random draws) rows are only removed, every to id is still given to someone, and blank
    rows are all kept. *)
Theorem C41_one_to_one :
  forall r froms pop discard ov rows r',
    select_one r froms pop discard true ov = Ok (rows, r') ->
    NoDup (filter (fun t => negb (is_na t)) (map snd rows)) /\
    exists rows0 r0,
      select_one r froms pop discard false ov = Ok (rows0, r0) /\
      incl rows rows0 /\
      filter (fun x => is_na (snd x)) rows = filter (fun x => is_na (snd x)) rows0 /\
      (forall t, In t (map snd rows0) -> In t (map snd rows)).
Proof. exact select_one_one_to_one. Qed.
Print Assumptions C41_one_to_one.

Example C41_example :
  (exists rows0 r0,
    select_one shop (Some [(s_ "i", s_ "B"); (s_ "j", s_ "B"); (s_ "k", s_ "Q")]) false false false None
      = Ok (rows0, r0) /\ length rows0 = 3) /\
  exists rows r', select_one shop (Some [(s_ "i", s_ "B"); (s_ "j", s_ "B"); (s_ "k", s_ "Q")]) false false true None
      = Ok (rows, r') /\ length rows = 2.
Proof. split; apply (ok_ex no_rows); vm_compute; reflexivity. Qed.

(** C42: with pop, what was stored before is what is stored after plus what was selected
    (as multisets of relations), for one_to_one calls and for calls naming each from once. *)
Theorem C42_select_one_pop_partial :
  forall r reqs discard oto ov rows r',
    reachable r -> no_na_tos r ->
    (oto = true \/ NoDup (map snd reqs)) ->
    select_one r (Some reqs) true discard oto ov = Ok (rows, r') ->
    exists gone, Permutation (stored r) (stored r' ++ gone) /\ map fst gone = sold rows.
Proof. exact select_one_pop. Qed.
Print Assumptions C42_select_one_pop_partial.

Theorem C42_select_one_without_pop :
  forall r froms discard oto ov rows r',
    select_one r froms false discard oto ov = Ok (rows, r') -> stored r' = stored r.
Proof. exact select_one_keeps. Qed.
Print Assumptions C42_select_one_without_pop.

(** Without one_to_one the same relation can be given to two requests of the call. *)
Theorem C42_select_one_pop_refuted :
  exists r reqs, (reachable r /\ no_na_tos r) /\
  exists rows r', select_one r (Some reqs) true true false None = Ok (rows, r') /\
    length (stored r) < length (stored r') + length (sold rows).
Proof.
  exists shop, [(s_ "i", s_ "B"); (s_ "j", s_ "B")].
  split; [exact (conj shop_reachable shop_no_na)|].
  apply (ok_ex no_rows); [reflexivity|]. vm_compute. lia.
Qed.
Print Assumptions C42_select_one_pop_refuted.

Example C42_example :
  reachable shop /\ no_na_tos shop /\
  exists rows r',
    select_one shop (Some [(s_ "i", s_ "A"); (s_ "j", s_ "A"); (s_ "k", s_ "B")]) true true true None
    = Ok (rows, r') /\ length (stored r') + length (sold rows) = 4 /\ 2 <= length (sold rows).
Proof.
  split; [exact shop_reachable|]. split; [exact shop_no_na|].
  apply (ok_ex no_rows); [reflexivity|]. split; [vm_compute; reflexivity|]. vm_compute. lia.
Qed.

(** C43: along any history of supplies and one-to-one sales, everything that was ever stored
    is either still stored or was sold once. *)
Theorem C43_sales_conserve :
  forall r es added gone r',
    history r es added gone r' -> reachable r -> no_na_tos r ->
    Permutation (map fst (stored r) ++ added) (map fst (stored r') ++ gone).
Proof. exact history_conserves. Qed.
Print Assumptions C43_sales_conserve.

(** In particular, if every item is supplied once, no item is ever sold twice. *)
Theorem C43_no_item_sold_twice :
  forall r es added gone r',
    history r es added gone r' -> reachable r -> no_na_tos r ->
    NoDup (map snd (map fst (stored r) ++ added)) -> NoDup (map snd gone).
Proof. exact history_no_double_sale. Qed.
Print Assumptions C43_no_item_sold_twice.

Example C43_example :
  exists added gone r',
    history shop [Sale [(s_ "i", s_ "A"); (s_ "j", s_ "A")] true;
                  Supply [s_ "B"] [s_ "n"] (WScalar 1);
                  Sale [(s_ "i", s_ "B"); (s_ "j", s_ "A")] true] added gone r' /\
    NoDup (map snd (map fst (stored shop) ++ added)) /\ 3 <= length gone.
Proof.
  do 3 eexists. split; [|split].
  - eapply h_sale; [apply (ok_eq no_rows); reflexivity|].
    eapply h_supply; [reflexivity|reflexivity|cbn; intuition discriminate
                     |apply (ok_eq1 empty_rel); reflexivity|].
    eapply h_sale; [apply (ok_eq no_rows); reflexivity|]. apply h_nil.
  - vm_compute. repeat constructor; cbn; intuition discriminate.
  - vm_compute. lia.
Qed.

(** C44: as soon as a from has two relations, one of weight 0 is never picked. *)
Theorem C44_zero_weight_not_selected :
  forall r reqs pop discard oto ov rows r',
    reachable r -> no_na_tos r ->
    select_one r (Some reqs) pop discard oto ov = Ok (rows, r') ->
    forall i f t, In (i, f, t) rows -> t <> VNA -> 2 <= length (tos_stored r f) ->
    match ov with
    | None => exists w, In (f, t, w) (stored r) /\ ~ (w == 0)%Q
    | Some d => exists w, dget t d = Some w /\ ~ (w == 0)%Q
    end.
Proof. exact select_one_weights. Qed.
Print Assumptions C44_zero_weight_not_selected.

(** A single relation is picked even with weight 0. *)
Theorem C44_single_relation_refuted :
  exists r,
    reachable r /\ (forall f t w, In (f, t, w) (stored r) -> (w == 0)%Q) /\
    exists rows r', select_one r (Some [(s_ "i", s_ "A")]) false true false None = Ok (rows, r') /\
    rows = [(s_ "i", s_ "A", s_ "x")].
Proof.
  exists (ok_or empty_rel (add_relations empty_rel [s_ "A"] [s_ "x"] (WScalar 0))).
  split; [eapply (reach_add empty_rel [s_ "A"] [s_ "x"] (WScalar 0)); [apply reach_new|reflexivity]|].
  split; [|apply (ok_ex no_rows); vm_compute; reflexivity].
  intros f t w H. vm_compute in H. destruct H as [[= _ _ <-]|[]]. reflexivity.
Qed.
Print Assumptions C44_single_relation_refuted.

Example C44_example :
  reachable shop /\ 2 <= length (tos_stored shop (s_ "A")) /\ In (s_ "A", s_ "t", 0%Q) (stored shop).
Proof. split; [exact shop_reachable|]. split; [vm_compute; lia|vm_compute; auto]. Qed.

(** C46, C48: select_many. *)
Theorem C46_select_many_quantities :
  forall r reqs pop discard rows r',
    reachable r -> NoDup (map q_idx reqs) ->
    select_many r reqs pop discard = Ok (rows, r') ->
    NoDup (map fst rows) /\ incl (map fst rows) (map q_idx reqs) /\
    (forall q, In q reqs -> length (given_to (q_idx q) rows) <= q_qty q) /\
    (forall f, f <> VNA -> exists left_over,
       let given := flat_map (fun q => given_to (q_idx q) rows) (requests_from f reqs) in
       Permutation (tos_stored r f) (given ++ left_over) /\
       length given = Nat.min (nsum (map q_qty (requests_from f reqs))) (length (tos_stored r f))).
Proof. exact select_many_quantities. Qed.
Print Assumptions C46_select_many_quantities.

Theorem C46_select_many_total :
  forall r reqs pop discard, exists rows r', select_many r reqs pop discard = Ok (rows, r').
Proof. exact select_many_ok. Qed.
Print Assumptions C46_select_many_total.

Example C46_example :
  reachable shop /\
  exists rows r',
    select_many shop [mkReq (s_ "i") (s_ "A") 2; mkReq (s_ "j") (s_ "A") 2; mkReq (s_ "k") (s_ "Q") 1]
      false true = Ok (rows, r') /\
    length (given_to (s_ "i") rows) + length (given_to (s_ "j") rows) = 3.
Proof.
  split; [exact shop_reachable|]. apply (ok_ex no_rows); vm_compute; reflexivity.
Qed.

Theorem C48_select_many_keeps_requests :
  forall r reqs pop rows r',
    reachable r -> NoDup (map q_idx reqs) ->
    select_many r reqs pop false = Ok (rows, r') ->
    Permutation (map fst rows) (map q_idx reqs).
Proof. exact select_many_all_requests. Qed.
Print Assumptions C48_select_many_keeps_requests.

Example C48_example :
  reachable shop /\
  exists rows r',
    select_many shop [mkReq (s_ "i") (s_ "A") 2; mkReq (s_ "j") (s_ "A") 0; mkReq (s_ "k") (s_ "Q") 1]
      false false = Ok (rows, r') /\ length rows = 3 /\ given_to (s_ "k") rows = [].
Proof.
  split; [exact shop_reachable|]. apply (ok_ex no_rows); [reflexivity|]. split; vm_compute; reflexivity.
Qed.

(** C47: with pop, what is given out is what disappears, when each from is named once. *)
Theorem C47_select_many_pop_partial :
  forall r reqs discard rows r',
    reachable r -> NoDup (map q_idx reqs) -> NoDup (map q_from reqs) -> ~ In VNA (map q_from reqs) ->
    select_many r reqs true discard = Ok (rows, r') ->
    exists removed,
      Permutation (stored r) (stored r' ++ removed) /\
      Permutation (map fst removed)
        (flat_map (fun q => map (pair (q_from q)) (given_to (q_idx q) rows)) reqs).
Proof. exact select_many_pops. Qed.
Print Assumptions C47_select_many_pop_partial.

Theorem C47_select_many_without_pop :
  forall r reqs discard rows r',
    select_many r reqs false discard = Ok (rows, r') -> stored r' = stored r.
Proof. exact select_many_keeps. Qed.
Print Assumptions C47_select_many_without_pop.

(** With two requests to the same from, only what the first one received is removed: items
    given to the second are still in stock. *)
Theorem C47_select_many_pop_refuted :
  exists r reqs f i t,
    reachable r /\ NoDup (map q_idx reqs) /\ NoDup (map snd (map fst (stored r))) /\
    exists rows r', select_many r reqs true true = Ok (rows, r') /\
      In t (given_to i rows) /\ related r' f t.
Proof.
  exists shop, [mkReq (s_ "i") (s_ "A") 1; mkReq (s_ "j") (s_ "A") 1].
  exists (s_ "A"), (s_ "i"), (s_ "z"). split; [exact shop_reachable|].
  split; [repeat constructor; cbn; intuition discriminate|].
  split; [vm_compute; repeat constructor; cbn; intuition discriminate|].
  apply (ok_ex no_rows); [reflexivity|]. split.
  - vm_compute. auto.
  - eexists. vm_compute. eauto.
Qed.
Print Assumptions C47_select_many_pop_refuted.

Example C47_example :
  reachable shop /\
  exists rows r',
    select_many shop [mkReq (s_ "i") (s_ "A") 2; mkReq (s_ "k") (s_ "B") 4] true true = Ok (rows, r') /\
    length (stored r') = 1.
Proof.
  split; [exact shop_reachable|]. apply (ok_ex no_rows); vm_compute; reflexivity.
Qed.

(** C50: add_grouped_relations is a flattened add with weight 1. *)
Theorem C50_add_grouped_exact :
  forall r froms lists r',
    reachable r -> add_grouped_relations r froms lists = Ok r' ->
    Permutation (stored r')
      (stored r ++ flat_map (fun '(f, ts) => map (fun t => (f, t, 1%Q)) ts) (combine froms lists)).
Proof. exact add_grouped_exact. Qed.
Print Assumptions C50_add_grouped_exact.

Theorem C50_add_grouped_total :
  forall r froms lists, exists r', add_grouped_relations r froms lists = Ok r'.
Proof. exact (fun r froms lists => add_grouped_ok (combine froms lists) r). Qed.
Print Assumptions C50_add_grouped_total.

Example C50_example :
  exists r', add_grouped_relations shop [s_ "A"; s_ "N"; s_ "A"]
    [[s_ "p"; s_ "q"]; []; [s_ "p"]] = Ok r' /\ length (stored r') = 7.
Proof. apply (ok_ex1 empty_rel); vm_compute; reflexivity. Qed.

(** C51: select_all_horizontal. *)
Theorem C51_select_all_partial :
  forall r ids, reachable r -> homogeneous r ->
    NoDup (map fst (select_all_horizontal r ids)) /\
    (forall f, In f (map fst (select_all_horizontal r ids)) <-> In f ids /\ exists t, related r f t) /\
    (forall f l, In (f, l) (select_all_horizontal r ids) -> Permutation l (tos_stored r f)).
Proof. exact select_all_exact. Qed.
Print Assumptions C51_select_all_partial.

Example C51_example :
  reachable shop /\ homogeneous shop /\
  select_all_horizontal shop [s_ "B"; s_ "Z"; s_ "A"; s_ "B"]
  = [(s_ "B", [s_ "y"]); (s_ "A", [s_ "x"; s_ "z"; s_ "t"])].
Proof.
  split; [exact shop_reachable|]. split; [exact shop_homogeneous|]. vm_compute. reflexivity.
Qed.

(** Mixed ids (numbers on one side, strings on the other) come back under another id. *)
Theorem C51_select_all_refuted :
  exists r f t, reachable r /\ related r f t /\ ~ In f (map fst (select_all_horizontal r [f])).
Proof.
  exists (ok_or empty_rel (add_relations empty_rel [VNum (Q2Qc 1)] [s_ "x"] (WScalar 1))),
    (VNum (Q2Qc 1)), (s_ "x").
  split; [eapply (reach_add empty_rel [VNum (Q2Qc 1)] [s_ "x"] (WScalar 1));
          [apply reach_new|reflexivity]|].
  split; [exists 1%Q; now left|]. vm_compute. intros [H|[]]. discriminate H.
Qed.
Print Assumptions C51_select_all_refuted.

(** C74: the same seed and the same calls can give different selections in two processes: the
    iteration order of a Python set of strings leaks into select_one() without from_ids. *)
Theorem C74_reproducible_refuted :
  exists froms tos order1 order2 r1 r2,
    (forall l, Permutation (order1 l) l) /\ (forall l, Permutation (order2 l) l) /\
    add_relations_ord order1 empty_rel froms tos (WScalar 1) = Ok r1 /\
    add_relations_ord order2 empty_rel froms tos (WScalar 1) = Ok r2 /\
    (exists rows r', select_one r1 None false true false None = Ok (rows, r') /\
       sold rows = [(s_ "A", s_ "y"); (s_ "B", s_ "x")]) /\
    (exists rows r', select_one r2 None false true false None = Ok (rows, r') /\
       sold rows = [(s_ "B", s_ "y"); (s_ "A", s_ "x")]).
Proof.
  exists [s_ "A"; s_ "A"; s_ "B"; s_ "B"], [s_ "x"; s_ "y"; s_ "x"; s_ "y"], (fun l => l), (@rev val).
  do 2 eexists. split; [easy|]. split; [intros l; symmetry; apply Permutation_rev|].
  split; [apply (ok_eq1 empty_rel); reflexivity|]. split; [apply (ok_eq1 empty_rel); reflexivity|].
  split; apply (ok_ex no_rows); vm_compute; reflexivity.
Qed.
Print Assumptions C74_reproducible_refuted.

(** With explicit from_ids the selection does not depend on it. *)
Theorem C74_reproducible_with_from_ids :
  forall order1 order2 r froms tos w r1 r2 reqs pop discard oto,
    (forall l, Permutation (order1 l) l) -> (forall l, Permutation (order2 l) l) ->
    add_relations_ord order1 r froms tos w = Ok r1 ->
    add_relations_ord order2 r froms tos w = Ok r2 ->
    rmap fst (select_one r1 (Some reqs) pop discard oto None)
    = rmap fst (select_one r2 (Some reqs) pop discard oto None).
Proof. exact add_relations_order_independent. Qed.
Print Assumptions C74_reproducible_with_from_ids.

Example C74_example :
  let froms := [s_ "A"; s_ "A"; s_ "B"] in
  let tos := [s_ "x"; s_ "y"; s_ "x"] in
  is_ok (add_relations_ord (fun l => l) shop froms tos (WScalar 1)) = true /\
  is_ok (add_relations_ord (@rev val) shop froms tos (WScalar 1)) = true.
Proof. split; reflexivity. Qed.
