(** select_one as a whole, select_many, select_all: facts used by the properties. *)
From Verif Require Import Base BaseFacts Rng RngFacts Utils UtilsFacts Relationship
  RelationshipFacts RelationshipSelect.

(** ** select_one *)
Definition requests (r : relationship) (from_ids : option (list (val * val))) : list (val * val) :=
  match from_ids with
  | Some l => l
  | None => combine (map vnat (seq 0 (length (grouped r)))) (dkeys (grouped r))
  end.

(** The requests that get a row. *)
Definition answered (r : relationship) (discard_empty : bool) (from_ids : option (list (val * val)))
  : list (val * val) :=
  filter (fun rq => negb discard_empty || has_relation (grouped r) (snd rq)) (requests r from_ids).

Definition public_row (s : sel) : val * val * val := (s_req s, s_from s, s_to s).

Lemma select_one_spec r from_ids rm disc oto ov rows r' :
  wf_grouped (grouped r) ->
  select_one r from_ids rm disc oto ov = Ok (rows, r') ->
  exists picks out,
    Forall2 (row_ok (grouped r) ov) (answered r disc from_ids) picks /\
    (oto = false -> out = picks) /\
    (oto = true ->
       NoDup (map s_to (filter (fun s => negb (blank s)) out)) /\ incl out picks /\
       filter blank out = filter blank picks /\
       (forall t, In t (map s_to (filter (fun s => negb (blank s)) picks)) ->
                  In t (map s_to (filter (fun s => negb (blank s)) out)))) /\
    rows = map public_row out /\
    grouped r' = (if rm then remove_selected_one (grouped r) out else grouped r) /\
    r_seed r' = r_seed r.
Proof.
  intros Hw. unfold select_one. destruct (negb (overridden_ok r ov)); [easy|]. intros H.
  apply bind_ok in H as ([picks st1] & Hp & H).
  change (match from_ids with Some l => l | None => _ end) with (requests r from_ids) in Hp.
  apply select_results_spec in Hp; [|easy].
  assert (Hout : exists out st2,
    match picks with [] => ([], st1)
                   | _ => if oto then one_to_one_filter picks st1 else (picks, st1) end = (out, st2) /\
    (oto = false -> out = picks) /\
    (oto = true -> NoDup (map s_to (filter (fun s => negb (blank s)) out)) /\ incl out picks /\
       filter blank out = filter blank picks /\
       (forall t, In t (map s_to (filter (fun s => negb (blank s)) picks)) ->
                  In t (map s_to (filter (fun s => negb (blank s)) out))))).
  { destruct picks as [|p ps].
    - exists [], st1. repeat split; try easy. constructor.
    - destruct oto.
      + destruct (one_to_one_filter (p :: ps) st1) as [out st2] eqn:E. exists out, st2.
        split; [easy|]. split; [easy|]. intros _. exact (one_to_one_spec _ _ _ _ E).
      + exists (p :: ps), st1. repeat split; easy. }
  destruct Hout as (out & st2 & E & H1 & H2). rewrite E in H. injection H as <- <-.
  exists picks, out. repeat split; try easy; apply H2; easy.
Qed.

Lemma select_one_wf r from_ids rm disc oto ov rows r' :
  wf_grouped (grouped r) ->
  select_one r from_ids rm disc oto ov = Ok (rows, r') -> wf_grouped (grouped r').
Proof.
  intros Hw H. destruct (select_one_spec _ _ _ _ _ _ _ _ Hw H) as (picks & out & _ & _ & _ & _ & Hg & _).
  rewrite Hg. destruct rm; [|easy]. now apply remove_selected_one_spec.
Qed.

Lemma select_one_ok r from_ids rm disc oto :
  wf_grouped (grouped r) ->
  (forall f rel, dget f (grouped r) = Some rel ->
     length (to_ids rel) <= 1 \/ weights_pickable (weights rel)) ->
  exists rows r', select_one r from_ids rm disc oto None = Ok (rows, r').
Proof.
  intros Hw Hp. unfold select_one. cbn [overridden_ok negb].
  destruct (select_results_ok (grouped r) disc (requests r from_ids) (r_state r) Hw Hp)
    as (picks & st1 & E).
  unfold requests in E. rewrite E. cbn [bind].
  destruct (match picks with [] => _ | _ => _ end) as [out st2]. eauto.
Qed.

Lemma Forall2_incl_valid g ov reqs picks out :
  Forall2 (row_ok g ov) reqs picks -> incl out picks ->
  Forall (row_valid g) out.
Proof.
  intros HF Hi. apply Forall_forall. intros s Hs. apply Hi in Hs.
  clear Hi. induction HF as [|rq p reqs picks Hr _ IH]; [easy|].
  destruct Hs as [->|Hs]; [now apply row_ok_valid in Hr|auto].
Qed.

(** Conservation: the rows handed out are exactly what disappears, provided no
    stored position is handed out twice. *)
Lemma select_one_conserves g g' out :
  wf_grouped g -> g' = remove_selected_one g out ->
  Forall (row_valid g) out ->
  (forall f, NoDup (idx_list (sels_of f out))) ->
  Permutation (contents g) (contents g' ++ flat_map (row_triple g) out).
Proof.
  intros Hw -> Hv Hd. destruct (remove_selected_one_spec g out Hw) as [Hw' Hview].
  now apply remove_conserves.
Qed.

Lemma row_triple_pair g s :
  row_valid g s ->
  map fst (row_triple g s)
  = match s_idx s with Some _ => [(s_from s, s_to s)] | None => [] end.
Proof.
  unfold row_valid, row_triple. destruct (s_idx s) as [i|]; [|easy].
  intros [w ->]. easy.
Qed.

Lemma nodup_idx_of_distinct_tos g out :
  Forall (row_valid g) out ->
  NoDup (map s_to (filter (fun s => match s_idx s with Some _ => true | None => false end) out)) ->
  forall f, NoDup (idx_list (sels_of f out)).
Proof.
  intros Hv Hd f. induction Hv as [|s out Hs Hv IH]; cbn; [constructor|].
  cbn in Hd. destruct (s_idx s) as [i|] eqn:Ei.
  - cbn in Hd. inversion Hd as [|? ? Hn Hd']; subst. specialize (IH Hd').
    destruct (keqb_spec (s_from s) f) as [Ef|]; [|easy]. cbn. rewrite Ei. cbn. constructor; [|easy].
    intros Hi. apply Hn. clear IH Hd Hd' Hn. unfold row_valid in Hs. rewrite Ei, Ef in Hs.
    destruct Hs as [w Hs]. unfold idx_list in Hi. apply in_flat_map in Hi as (s' & Hs' & Hi).
    unfold sels_of in Hs'. apply filter_In in Hs' as [Hs' Ef']. apply keqb_eq in Ef'.
    rewrite Forall_forall in Hv. specialize (Hv s' Hs'). unfold row_valid in Hv.
    destruct (s_idx s') as [j|] eqn:Ej; [|easy]. destruct Hi as [->|[]].
    rewrite Ef' in Hv. destruct Hv as [w' Hv]. rewrite Hs in Hv. injection Hv as -> _.
    apply in_map. apply filter_In. now rewrite Ej.
  - specialize (IH Hd). destruct (keqb (s_from s) f); [|easy]. cbn. now rewrite Ei.
Qed.

Lemma nodup_idx_of_distinct_froms out :
  NoDup (map s_from out) -> forall f, NoDup (idx_list (sels_of f out)).
Proof.
  intros Hd f. induction out as [|s out IH]; cbn; [constructor|].
  cbn in Hd. inversion Hd as [|? ? Hn Hd']; subst.
  destruct (keqb_spec (s_from s) f) as [Ef|]; [|now apply IH]. cbn.
  assert (E : sels_of f out = []).
  { unfold sels_of. clear IH Hd Hd'. induction out as [|s' out IH]; cbn; [easy|]. cbn in Hn.
    destruct (keqb_spec (s_from s') f) as [E|]; [exfalso; apply Hn; left; congruence|].
    apply IH. auto. }
  unfold sels_of in E. rewrite E. cbn. destruct (s_idx s); cbn; repeat constructor. easy.
Qed.

(** ** select_many *)
Definition requests_of (f : val) (reqs : list req) : list req :=
  filter (fun q => keqb (q_from q) f) reqs.

Lemma gather_spec reqs froms : forall st groups st',
  NoDup (map q_idx reqs) ->
  gather reqs froms st = (groups, st') ->
  Forall2 (fun f grp => fst grp = f /\ Permutation (snd grp) (requests_of f reqs)) froms groups.
Proof.
  intros st groups st' Hd. revert st groups st'.
  induction froms as [|f froms IH]; cbn [gather]; intros st groups st' H; [injection H as <- _; constructor|].
  destruct (permutation _ st) as [perm st1] eqn:Ep. destruct (gather reqs froms st1) as [rest st2] eqn:Eg.
  injection H as <- _. constructor; [|eauto]. cbn. split; [easy|].
  apply permutation_perm in Ep. apply loc_rows_perm; [|easy].
  clear -Hd. induction reqs as [|q reqs IH]; cbn; [constructor|]. cbn in Hd.
  inversion Hd as [|? ? Hn Hd']; subst. destruct (keqb (q_from q) f); cbn; [|auto].
  constructor; [|auto]. intros Hi. apply Hn. apply in_map_iff in Hi as (q' & E & Hi).
  apply filter_In in Hi as [Hi _]. rewrite <- E. now apply in_map.
Qed.

(** What one request received, [p_tos] being the values at positions [p_idx]. *)
Definition piece_ok (g : dict val relations) (q : req) (p : pick) : Prop :=
  p_req p = q_idx q /\ p_from p = q_from q /\ length (p_idx p) <= q_qty q /\
  take (p_idx p) (map fst (view g (q_from q))) = Ok (p_tos p).

Definition group_ok (g : dict val relations) (f : val) (qs : list req) (full : list pick) : Prop :=
  Forall2 (piece_ok g) qs full /\
  NoDup (flat_map p_idx full) /\
  length (flat_map p_idx full) = Nat.min (nsum (map q_qty qs)) (length (view g f)).

Definition nonempty_pick (p : pick) : bool := match p_idx p with [] => false | _ => true end.

Lemma take_app_inv {A} i1 i2 (l : list A) t1 t2 :
  length i1 = length t1 -> take (i1 ++ i2) l = Ok (t1 ++ t2) ->
  take i1 l = Ok t1 /\ take i2 l = Ok t2.
Proof.
  rewrite !take_nth. intros El H. apply Forall2_app_inv_l in H as (a & b & H1 & H2 & E).
  assert (length a = length t1) by (rewrite <- El; symmetry; eapply Forall2_length; eauto).
  assert (E1 : t1 = a /\ t2 = b).
  { clear -E H. revert a E H. induction t1 as [|x t1 IH]; intros [|y a]; cbn; intros E H; try easy.
    injection E as -> E. destruct (IH a E) as [-> ->]; [lia|easy]. }
  destruct E1 as [-> ->]. easy.
Qed.

Lemma split_picks_spec g f qs sizes tos idxs :
  length sizes = length qs -> nsum sizes = length idxs ->
  take idxs (map fst (view g f)) = Ok tos ->
  Forall (fun q => q_from q = f) qs ->
  Forall2 (fun n q => n <= q_qty q) sizes qs ->
  exists full,
    split_picks f qs sizes tos idxs = filter nonempty_pick full /\
    Forall2 (piece_ok g) qs full /\ flat_map p_idx full = idxs /\ flat_map p_tos full = tos.
Proof.
  unfold split_picks. revert qs tos idxs.
  induction sizes as [|n sizes IH]; intros [|q qs] tos idxs; cbn [length nsum slices combine flat_map];
    intros El En Ht Hf Hq; try easy.
  - exists []. destruct idxs; [|easy]. cbn in Ht. injection Ht as <-. now repeat split.
  - assert (Hlt : length tos = length idxs) by (apply take_length in Ht; lia).
    assert (Hli : length (firstn n idxs) = n) by (rewrite firstn_length; lia).
    assert (Ht2 : take (firstn n idxs ++ skipn n idxs) (map fst (view g f))
                  = Ok (firstn n tos ++ skipn n tos)) by now rewrite !firstn_skipn.
    apply take_app_inv in Ht2 as [Ht1 Ht2]; [|rewrite !firstn_length; lia].
    inversion Hf as [|? ? Hqf Hf']; subst. inversion Hq as [|? ? ? ? Hqn Hq']; subst.
    destruct (IH qs (skipn n tos) (skipn n idxs)) as (full & E & HF & Ei & Eto); try easy.
    { injection El as El. exact El. }
    { rewrite skipn_length. lia. }
    exists (mkPick (q_idx q) (q_from q) (firstn n tos) (firstn n idxs) :: full).
    rewrite E. repeat split.
    + cbn [filter nonempty_pick p_idx]. unfold nonempty_pick at 1. cbn [p_idx].
      destruct (firstn n idxs); easy.
    + constructor; [|easy]. repeat split; cbn; [|easy]. lia.
    + cbn [flat_map p_idx]. rewrite Ei. apply firstn_skipn.
    + cbn [flat_map p_tos]. rewrite Eto. apply firstn_skipn.
Qed.

Lemma Forall2_map_l {A B C} (R : B -> C -> Prop) (f : A -> B) l l' :
  Forall2 R (map f l) l' <-> Forall2 (fun a c => R (f a) c) l l'.
Proof.
  split.
  - revert l'; induction l as [|a l IH]; cbn; intros l' H; inversion H; subst; constructor; auto.
  - induction 1; cbn; constructor; auto.
Qed.

Lemma nsum_to_nat l : Forall (fun z => 0 <= z)%Z l -> Z.of_nat (nsum (map Z.to_nat l)) = zsum l.
Proof. induction 1; cbn; lia. Qed.

Lemma zsum_of_nat {A} (f : A -> nat) l : zsum (map (fun q => Z.of_nat (f q)) l) = Z.of_nat (nsum (map f l)).
Proof. induction l; cbn; lia. Qed.

Lemma bounds_to_nat l qs :
  Forall2 (fun c x => 0 <= c <= x)%Z l (map (fun q => Z.of_nat (q_qty q)) qs) ->
  Forall2 (fun n q => n <= q_qty q) (map Z.to_nat l) qs.
Proof.
  revert l; induction qs as [|q qs IH]; cbn; intros l H; inversion H; subst; cbn; constructor; auto.
  lia.
Qed.

Lemma all_picks_spec g groups : forall st out st',
  wf_grouped g ->
  Forall (fun grp => Forall (fun q => q_from q = fst grp) (snd grp)) groups ->
  all_picks g groups st = Ok (out, st') ->
  exists fulls,
    Forall2 (fun grp full => group_ok g (fst grp) (snd grp) full) groups fulls /\
    out = filter nonempty_pick (concat fulls).
Proof.
  intros st out st' Hw. revert st out st'.
  induction groups as [|[f qs] groups IH]; cbn [all_picks]; intros st out st' Hf H.
  - injection H as <- _. exists []. split; [constructor|easy].
  - inversion Hf as [|? ? Hqf Hf']; subst. cbn [fst snd] in Hqf.
    destruct (dget f g) as [rel|] eqn:E.
    + apply bind_ok in H as (caps & Hc & H).
      apply bind_ok in H as ([[idxs tos] st1] & Hp & H).
      apply bind_ok in H as ([ps st2] & Ha & [= <- _]).
      apply IH in Ha as (fulls & HF & ->); [|easy].
      assert (Hnn : Forall (fun x => 0 <= x)%Z (map (fun q => Z.of_nat (q_qty q)) qs)).
      { apply Forall_forall. intros z Hz. apply in_map_iff in Hz as (q & <- & _). lia. }
      rewrite cap_to_total_greedy in Hc; [|easy|lia]. injection Hc as <-.
      set (n := Z.of_nat (rel_len rel)) in *.
      set (qz := map (fun q => Z.of_nat (q_qty q)) qs) in *.
      assert (Hb := greedy_bounds qz n Hnn ltac:(lia)).
      assert (Hgn : Forall (fun z => 0 <= z)%Z (greedy n qz)).
      { clear -Hb. induction Hb; constructor; [lia|easy]. }
      assert (Hsum : nsum (map Z.to_nat (greedy n qz)) = Nat.min (nsum (map q_qty qs)) (rel_len rel)).
      { pose proof (nsum_to_nat _ Hgn) as E1. rewrite greedy_sum in E1 by (easy || lia).
        unfold qz in E1 at 2. rewrite zsum_of_nat in E1. lia. }
      unfold pick_many in Hp. apply bind_ok in Hp as ([idxs' st3] & Hch & Hp).
      apply bind_ok in Hp as (tos' & Ht & [= -> -> _]).
      apply choice_norep_spec in Hch as (_ & Hli & Hnd & _).
      assert (Hwr := wf_grouped_dget _ _ _ Hw E). destruct Hwr as [Elw _].
      assert (Hvt : map fst (view g f) = to_ids rel).
      { unfold view. rewrite E. unfold rview. apply map_fst_combine. lia. }
      rewrite <- Hvt in Ht.
      destruct (split_picks_spec g f qs (map Z.to_nat (greedy n qz)) tos idxs) as (full & Esp & HP & Eid & _).
      * rewrite map_length, greedy_length. unfold qz. apply map_length.
      * rewrite Hli. unfold rel_len in Hsum. lia.
      * easy.
      * easy.
      * now apply bounds_to_nat.
      * exists (full :: fulls). split.
        -- constructor; [|easy]. cbn [fst snd]. split; [easy|]. rewrite Eid. split; [easy|].
           rewrite Hli. assert (Hvl : length (view g f) = rel_len rel).
           { rewrite view_length by easy. now rewrite E. }
           unfold rel_len in *. lia.
        -- cbn [concat]. rewrite filter_app, Esp. easy.
    + apply IH in H as (fulls & HF & ->); [|easy].
      assert (Hv : view g f = []) by (unfold view; now rewrite E).
      exists (map (fun q => mkPick (q_idx q) (q_from q) [] []) qs :: fulls). split.
      * constructor; [|easy]. cbn [fst snd]. repeat split.
        -- clear -Hqf. induction qs as [|q qs IH]; cbn; constructor.
           ++ repeat split; cbn; lia.
           ++ inversion Hqf; auto.
        -- replace (flat_map p_idx _) with (@nil nat); [constructor|]. clear. induction qs; cbn; auto.
        -- rewrite Hv. cbn. rewrite Nat.min_0_r. clear. induction qs; cbn; auto.
      * cbn [concat]. rewrite filter_app.
        replace (filter nonempty_pick (map _ qs)) with (@nil pick); [easy|].
        clear. induction qs; cbn; auto.
Qed.

Lemma all_picks_ok g groups : forall st, exists out st', all_picks g groups st = Ok (out, st').
Proof.
  induction groups as [|[f qs] groups IH]; cbn [all_picks]; intros st; [eauto|].
  destruct (dget f g) as [rel|]; [|apply IH].
  rewrite cap_to_total_greedy; [cbn [bind]| |lia].
  - unfold pick_many. set (n := nsum _).
    destruct (choice_norep_ok (length (to_ids rel)) (Nat.min (length (to_ids rel)) n) st ltac:(lia))
      as (xs & st1 & E). rewrite E. cbn [bind].
    apply choice_norep_spec in E as (_ & _ & _ & Hlt). apply take_ok in Hlt as [tos ->]. cbn [bind].
    destruct (IH st1) as (out & st2 & ->). cbn. eauto.
  - apply Forall_forall. intros z Hz. apply in_map_iff in Hz as (q & <- & _). lia.
Qed.

Lemma select_many_ok r reqs rm disc : exists rows r', select_many r reqs rm disc = Ok (rows, r').
Proof.
  unfold select_many. destruct (gather reqs _ (r_state r)) as [groups st1].
  destruct (all_picks_ok (grouped r) groups st1) as (out & st2 & ->). cbn. eauto.
Qed.

(** The froms requested, without missing values. *)
Definition asked (reqs : list req) : list val :=
  uniq (filter (fun f => negb (is_na f)) (map q_from reqs)).

Lemma select_many_spec r reqs rm disc rows r' :
  wf_grouped (grouped r) -> NoDup (map q_idx reqs) ->
  select_many r reqs rm disc = Ok (rows, r') ->
  exists (full : list (val * list req * list pick)) out,
    map (fun x => fst (fst x)) full = asked reqs /\
    Forall (fun '(f, qs, ps) => Permutation qs (requests_of f reqs) /\
                                group_ok (grouped r) f qs ps) full /\
    out = filter nonempty_pick (flat_map snd full) /\
    rows = map (fun p => (p_req p, p_tos p)) out
           ++ (if negb disc && negb (length out =? length reqs)
               then map (fun i => (i, [])) (index_difference (map q_idx reqs) (map p_req out)) else []) /\
    grouped r' = (if rm then remove_selected_many (grouped r) out else grouped r) /\
    r_seed r' = r_seed r.
Proof.
  intros Hw Hd. unfold select_many. fold (asked reqs).
  destruct (gather reqs (asked reqs) (r_state r)) as [groups st1] eqn:Eg.
  intros H. apply bind_ok in H as ([out st2] & Ha & [= <- <-]).
  apply gather_spec in Eg; [|easy].
  apply all_picks_spec in Ha as (fulls & HF & Eo); [|easy|].
  - exists (combine groups fulls), out.
    assert (Hlen : length groups = length fulls) by (eapply Forall2_length; eauto).
    repeat split.
    + transitivity (map fst groups).
      * rewrite <- (map_map fst fst). f_equal. apply map_fst_combine. lia.
      * clear -Eg. induction Eg as [|f grp fs gs [E _] _ IH]; cbn; [easy|]. now f_equal.
    + clear Hlen Eo. revert fulls HF. induction Eg as [|f [f' qs] fs gs [E Hp] _ IH]; intros fulls HF.
      * constructor.
      * inversion HF as [|? full ? fulls' Hg HF']; subst. cbn. constructor; [|auto].
        cbn in *. subst. easy.
    + rewrite Eo. f_equal. rewrite flat_map_concat_map. f_equal. symmetry.
      apply map_snd_combine. lia.
    + rewrite map_length, map_map. cbn. destruct (negb disc && negb (length out =? length reqs)); [easy|].
      now rewrite app_nil_r.
  - clear -Eg. induction Eg as [|f [f' qs] fs gs [E Hp] _ IH]; constructor; [|easy].
    cbn in *. subst. apply Forall_forall. intros q Hq. apply (Permutation_in _ Hp) in Hq.
    unfold requests_of in Hq. apply filter_In in Hq as [_ Hq]. now apply keqb_eq in Hq.
Qed.
