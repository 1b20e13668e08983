(** Operations that do not raise. *)
From Verif Require CircusFacts.
From Verif Require Import Base BaseFacts Rng RngFacts Utils UtilsFacts Relationship RelationshipFacts RelationshipSelect RelationshipMany RelationshipGiven SpecRelationship RelationshipProps Frame Gens GensProps
  Clock SpecClock ClockProps Attribute SpecAttribute AttributeFacts World Story Ops OpsFacts Fs Helpers HelpersFacts Circus SpecStory StoryFacts StoryExec StoryProps StoryMore StoryStates SpecOps OpsProps
  OpsColumns OpsMore SpecWorld WorldProps SpecPopulation GensKept SpecLocal LocalFacts LocalOps LocalCalls CircusProps GeographyLog SpecCircus SpecSupply SupplyFacts
  SupplyProps SpecLedger LedgerProps SpecAct ActFacts GeographyRun GeographyTotal SpecRecords RecordsGens RecordsProps SpecSafe SafeGens SafeFacts.
From Coq Require Import Permutation.

(** ** What stays true in a circus whose runs never raise *)
Definition in_states (w : world) : Prop :=
  forall a s, nth_error (w_stories w) a = Some s -> forall i st r, In (i, (st, r)) (st_timer s) -> In st (st_states s).
Definition tables_grown (w0 w : world) : Prop :=
  (forall x t0, nth_error (w_attrs w0) x = Some t0 -> NoDup (map fst t0) ->
    exists t, nth_error (w_attrs w) x = Some t /\ NoDup (map fst t) /\ incl (map fst t0) (map fst t)) /\
  forall x, account w0 x -> exists t, nth_error (w_attrs w) x = Some t /\ forall k v, In (k, v) t -> numeric v.
Definition weights_positive (w0 w : world) : Prop :=
  forall r rel0, nth_error (w_rels w0) r = Some rel0 -> positive rel0 -> exists rel, nth_error (w_rels w) r = Some rel /\ positive rel.

Record fine (kinds : nat -> val -> val -> Prop) (w0 w : world) : Prop := mkFine {
  fi_since : since w0 w;
  fi_states : in_states w;
  fi_tgens : length (w_tgens w) = length (w_tgens w0);
  fi_tables : tables_grown w0 w;
  fi_weights : weights_positive w0 w;
  fi_kinds : respects kinds w
}.

(** ** One row per request *)
Lemma NoDup_halves {A} (p : A -> bool) l : NoDup (filter p l) -> NoDup (filter (fun x => negb (p x)) l) -> NoDup l.
Proof.
  induction l as [|x l IH]; cbn; intros H1 H2; [constructor|]. destruct (p x) eqn:E; cbn in *.
  - inversion H1; subst. constructor; [|auto]. intros Hin. apply H3. now apply filter_In.
  - inversion H2; subst. constructor; [|auto]. intros Hin. apply H3. apply filter_In. now rewrite E.
Qed.
Lemma select_one_indices r reqs pop disc oto ov rows r' : reachable r -> NoDup (map fst reqs) -> select_one r (Some reqs) pop disc oto ov = Ok (rows, r') ->
  NoDup (map (fun x => fst (fst x)) rows).
Proof.
  intros R Nd H. apply reachable_wf in R. destruct (select_one_spec _ _ _ _ _ _ _ _ R H) as (picks & out & HF & Hoff & Hon & -> & _ & _).
  rewrite map_map. cbn [public_row fst].
  assert (Np : NoDup (map s_req picks)).
  { replace (map s_req picks) with (map fst (answered r disc (Some reqs))).
    - unfold answered, requests. now apply RelationshipFacts.NoDup_map_filter.
    - clear - HF. induction HF as [|rq s l l' Hok _ IH]; cbn; [reflexivity|]. destruct Hok as (-> & _). now f_equal. }
  destruct oto; [|now rewrite Hoff]. destruct (Hon eq_refl) as (N1 & Hi & Eb & _).
  apply UtilsFacts.NoDup_map_inj.
  2:{ apply (NoDup_halves blank); [|eapply NoDup_map_inv; exact N1]. rewrite Eb. apply NoDup_filter. eapply NoDup_map_inv; exact Np. }
  intros x y Hx Hy E. apply (NoDup_map_inv_eq s_req picks); auto.
Qed.

(** ** Joins of columns *)
Lemma join_runs how d out : NoDup (df_index d) -> NoDup (df_index out) -> exists d', add_columns how d out = Ok d'.
Proof.
  intros N1 N2. unfold add_columns, merge_index. rewrite (proj2 (nodupb_NoDup _) N1), (proj2 (nodupb_NoDup _) N2). cbn [negb orb]. eauto.
Qed.

Lemma merge_logs_total (a b : logs) : exists l, merge_dicts [a; b] (Some df_concat) = Ok l.
Proof.
  unfold merge_dicts, merge_2_dicts, merge_2_dicts_ord. cbn [fold_left bind].
  destruct (mapr_total (fun key => let! v := merged_value (Some df_concat) a b key in Ok (key, v)) (union_keys a b)) as (l & E & _); [|eauto].
  intros k Hk. unfold merged_value. destruct (dget k a) as [v1|] eqn:E1, (dget k b) as [v2|] eqn:E2; cbn; eauto.
  exfalso. unfold union_keys in Hk. apply in_app_or in Hk as [Hk|Hk].
  - apply dget_None in E1. now apply E1.
  - apply filter_In in Hk as [Hk _]. apply dget_None in E2. now apply E2.
Qed.

(** ** Timers *)
Lemma cyclic_total y obs : NoDup (map fst obs) -> exists ts y', cyclic_generate y obs = Ok (ts, y').
Proof.
  intros Nd. unfold cyclic_generate. destruct (draws uniform _ _) as [us st1] eqn:Eu. destruct (draws Rng.beta _ _) as [bs st2] eqn:Eb.
  set (all := map _ (_ ++ _)).
  assert (Na : NoDup (map fst all)).
  { unfold all. rewrite map_map. replace (map _ (_ ++ _)) with (map fst (filter (fun o : val * Q => is_low (snd o)) obs) ++ map fst (filter (fun o : val * Q => is_high (snd o)) obs)).
    - apply NoDup_app_parts; try now apply RelationshipFacts.NoDup_map_filter.
      intros x H1 H2. apply in_map_iff in H1 as ([x1 q1] & E1 & H1). apply in_map_iff in H2 as ([x2 q2] & E2 & H2). cbn [fst] in E1, E2. subst x1 x2.
      apply filter_In in H1 as [H1 K1]. apply filter_In in H2 as [H2 K2]. assert (E : (x, q1) = (x, q2)) by now apply (NoDup_map_inv_eq fst obs).
      injection E as <-. cbn [snd] in K1, K2. apply is_low_iff in K1 as [_ K1]. apply is_high_iff in K2. apply (Qlt_irrefl 2). eapply Qlt_le_trans; eauto.
    - rewrite map_app, !map_map. apply draws_length in Eu, Eb. f_equal.
      + rewrite <- (map_fst_combine (filter (fun o : val * Q => is_low (snd o)) obs) us) at 1 by lia. rewrite map_map. apply map_ext. now intros [[i a] u].
      + rewrite <- (map_fst_combine (filter (fun o : val * Q => is_high (snd o)) obs) bs) at 1 by lia. rewrite map_map. apply map_ext. now intros [[i a] u]. }
  assert (exists r, reindex_like all obs = Ok r) as [r Er].
  { unfold reindex_like. destruct (list_eqb _ _); [eauto|]. rewrite (proj2 (nodupb_NoDup _) Na). cbn. eauto. }
  rewrite Er. cbn. eauto.
Qed.
Lemma timers_total g obs : NoDup (map fst obs) -> exists ts g', tgen_generate g obs = Ok (ts, g').
Proof.
  intros Nd. destruct g as [v|y|f k]; cbn [tgen_generate]; eauto. destruct (cyclic_total y obs Nd) as (ts & y' & ->). cbn. eauto.
Qed.

Lemma param_total s p ids : NoDup ids -> incl ids (st_ids s) -> In "default"%string (st_states s) ->
  (forall i st r, In (i, (st, r)) (st_timer s) -> In st (st_states s)) ->
  (forall i st q, In i (st_ids s) -> In st (st_states s) -> exists x, declared s q i st = Some x) ->
  exists l, get_param s p ids = Ok l /\ map fst l = ids.
Proof.
  intros Nd Hi Hd Hs Hp. assert (X : exists l, get_param s p ids = Ok l).
  { unfold get_param. destruct (length _ =? 1).
    - destruct (mapr_total (fun i => match declared s p i "default" with Some q => Ok (i, q) | None => Err KeyError end) ids) as (l & E & _); [|eauto].
      intros i Hin. destruct (Hp i "default"%string p (Hi i Hin) Hd) as [q ->]. eauto.
    - rewrite (proj2 (nodupb_NoDup _) Nd). cbn [negb].
      destruct (mapr_total (fun i => match state_of s i with
                      | None => Err KeyError
                      | Some st => match declared s p i st with Some q => Ok (i, q) | None => Err KeyError end end) ids) as (l & E & _); [|eauto].
      intros i Hin. specialize (Hi i Hin). unfold state_of. destruct (dget i (st_timer s)) as [[st r]|] eqn:E.
      + cbn. apply dget_In in E. destruct (Hp i st p Hi (Hs _ _ _ E)) as [q ->]. eauto.
      + apply dget_None in E. contradiction. }
  destruct X as [l E]. exists l. split; [exact E|]. eapply get_param_keys; eauto.
Qed.

Lemma reset_total s g ids : NoDup (st_ids s) -> In "default"%string (st_states s) ->
  (forall i st r, In (i, (st, r)) (st_timer s) -> In st (st_states s)) ->
  (forall i st q, In i (st_ids s) -> In st (st_states s) -> exists x, declared s q i st = Some x) ->
  match ids with Some l => NoDup l /\ incl l (st_ids s) | None => True end -> exists s' g', reset_timers s g ids = Ok (s', g').
Proof.
  intros Nd Hd Hs Hp Hi. unfold reset_timers. fold (reset_ids s ids).
  assert (Hin : incl (reset_ids s ids) (st_ids s)).
  { intros i K. apply reset_addressed in K as [K _]. destruct ids; [now apply Hi|exact K]. }
  assert (Nr : NoDup (reset_ids s ids)). { unfold reset_ids. apply index_difference_NoDup. destruct ids; [apply Hi|exact Nd]. }
  destruct (reset_ids s ids) as [|x xs] eqn:E; [eauto|]. rewrite <- E in *. clear E x xs.
  destruct (param_total s Activity (reset_ids s ids) Nr Hin Hd Hs Hp) as (l & -> & El). cbn [bind].
  destruct (timers_total g l) as (ts & g' & ->); [now rewrite El|]. cbn [bind]. rewrite (known_In _ _ Hin). cbn [negb]. eauto.
Qed.

(** ** Updated tables *)
Lemma grown_set w0 w x t t' : tables_grown w0 w -> nth_error (w_attrs w) x = Some t -> (NoDup (map fst t) -> NoDup (map fst t') /\ incl (map fst t) (map fst t')) ->
  (account w0 x -> (forall k v, In (k, v) t -> numeric v) -> forall k v, In (k, v) t' -> numeric v) -> tables_grown w0 (set_attrs (set_nth x t' (w_attrs w)) w).
Proof.
  intros [G A] Et Hk Hn. split.
  - intros y t0 E0 N0. destruct (G y t0 E0 N0) as (ty & Ey & Ny & Iy). cbn [w_attrs set_attrs]. rewrite nth_error_set_nth. destruct (Nat.eqb_spec x y) as [<-|_]; [|eauto].
    rewrite Et. assert (ty = t) by congruence. subst ty. destruct (Hk Ny) as [K1 K2]. exists t'. split; [reflexivity|]. split; [exact K1|]. eapply incl_tran; eauto.
  - intros y Ay. destruct (A y Ay) as (ty & Ey & Ny). cbn [w_attrs set_attrs]. rewrite nth_error_set_nth. destruct (Nat.eqb_spec x y) as [<-|_]; [|eauto].
    rewrite Et. assert (ty = t) by congruence. subst ty. exists t'. split; [reflexivity|]. now apply Hn.
Qed.
Lemma kinds_set kinds w x t t' : respects kinds w -> nth_error (w_attrs w) x = Some t -> (forall k v, In (k, v) t' -> kinds x k v) ->
  respects kinds (set_attrs (set_nth x t' (w_attrs w)) w).
Proof.
  intros Rs Et Hk y ty k v Ey Hin. cbn [w_attrs set_attrs] in Ey. rewrite nth_error_set_nth in Ey. destruct (Nat.eqb_spec x y) as [<-|_]; [|eapply Rs; eauto].
  rewrite Et in Ey. injection Ey as <-. now apply Hk.
Qed.
Lemma attr_update_now kinds w0 w x ser : tables_grown w0 w -> respects kinds w -> single_valued w0 x -> ~ account w0 x -> NoDup (dkeys ser) ->
  (forall k v, In (k, v) ser -> kinds x k v) ->
  exists w', update_attr x ser w = (Ok tt, w') /\ tables_grown w0 w' /\ respects kinds w' /\ w_pops w' = w_pops w.
Proof.
  intros G Rs (t0 & E0 & N0) Na Ns Hkd. destruct (proj1 G _ _ E0 N0) as (t & Et & Nt & Hk).
  unfold update_attr, bindM, lift, deref, put_attr, modify. rewrite Et.
  destruct (attr_update_ok t ser Nt Ns) as (t' & E & Ek & Nk & Hv). rewrite E. eexists. split; [reflexivity|]. split; [|split; [|reflexivity]].
  - apply (grown_set w0 w x t t' G Et); [|intros A; contradiction]. intros _. split; [exact Nk|]. intros k Hin. change (map fst t') with (dkeys t'). rewrite Ek. apply index_union_In. now left.
  - apply (kinds_set kinds w x t t' Rs Et). intros k v Hin. apply (In_dget _ _ _ Nk) in Hin. rewrite Hv in Hin. destruct (dget k ser) as [v'|] eqn:Es.
    + injection Hin as ->. apply Hkd. now apply dget_In.
    + apply dget_In in Hin. eapply Rs; eauto.
Qed.
Lemma keep_last_incl {A} (rows : list (val * A)) : incl (keep_last rows) rows.
Proof.
  induction rows as [|r rows IH]; cbn [keep_last]; [apply incl_refl|]. destruct (mem _ _).
  - intros x Hx. right. now apply IH.
  - intros x [<-|Hx]; [now left|right; now apply IH].
Qed.
Lemma keep_last_NoDup {A} (rows : list (val * A)) : NoDup (map fst (keep_last rows)).
Proof.
  induction rows as [|r rows IH]; cbn [keep_last]; [constructor|]. destruct (mem (fst r) (map fst rows)) eqn:E; [exact IH|].
  cbn [map]. constructor; [|exact IH]. apply mem_not_In in E. intros K. apply E. apply in_map_iff in K as (x & <- & Hx). apply in_map. now apply keep_last_incl.
Qed.
Lemma same_names_true a b : (forall n, In n a <-> In n b) -> same_names a b = true.
Proof.
  intros H. unfold same_names. apply andb_true_intro. split; apply forallb_forall; intros x Hx; apply mem_In; now apply H.
Qed.

(** [pop.update]: as many updates as there are attributes *)
Lemma pop_update_now kinds w0 w p po d : tables_grown w0 w -> respects kinds w -> nth_error (w_pops w) p = Some po -> rectangular d ->
  (forall n, In n (df_cols d) <-> In n (map fst (p_attrs po))) ->
  (forall name x, In name (df_cols d) -> dget name (p_attrs po) = Some x -> single_valued w0 x /\ ~ account w0 x /\
    forall row, In row (df_rows d) -> kinds x (fst row) (row_of d row name)) ->
  exists w', pop_update p d w = (Ok tt, w') /\ tables_grown w0 w' /\ respects kinds w'.
Proof.
  intros G Rs Hp Rd Hn Hx. unfold pop_update. unfold bindM at 1. unfold deref at 1. rewrite Hp.
  rewrite (same_names_true (dkeys (p_attrs po)) (df_cols d)) by (intros n; symmetry; apply Hn). cbn [negb].
  rewrite (proj2 (nodupb_NoDup (df_cols d)) (proj1 Rd)). cbn [negb].
  set (dd := mkDf (df_cols d) (keep_last (df_rows d))).
  set (po' := mkPop _ _ _ _). unfold bindM at 1. unfold put_pop, modify.
  set (w1 := set_pops (set_nth p po' (w_pops w)) w).
  assert (G1 : tables_grown w0 w1) by exact G. assert (R1 : respects kinds w1) by exact Rs.
  assert (P1 : nth_error (w_pops w1) p = Some po'). { unfold w1. cbn [w_pops set_pops]. rewrite nth_error_set_nth, Nat.eqb_refl, Hp. reflexivity. }
  assert (Rdd : rectangular dd). { split; [apply Rd|]. intros row Hrow. apply Rd. now apply keep_last_incl. }
  clearbody w1. assert (Hall : forall name, In name (df_cols d) -> In name (df_cols d)) by auto. revert Hall. generalize (df_cols d) at 1 3. intros names.
  revert w1 G1 R1 P1. induction names as [|name names IH]; intros w1 G1 R1 P1 Hall; cbn [foreach].
  - exists w1. split; [reflexivity|]. now split.
  - assert (Hin : In name (df_cols d)) by (apply Hall; now left).
    destruct (dget name (p_attrs po)) as [x|] eqn:Ex.
    2:{ exfalso. apply dget_None in Ex. now apply Ex, Hn. }
    destruct (Hx name x Hin Ex) as (Sv & Na & Kd).
    destruct (attr_update_now kinds w0 w1 x (map (fun row => (fst row, row_of dd row name)) (df_rows dd)) G1 R1 Sv Na) as (w2 & E & G2 & R2 & P2).
    + unfold dkeys. rewrite map_map. cbn [fst]. apply keep_last_NoDup.
    + intros k v Hkv. apply in_map_iff in Hkv as (row & [= <- <-] & Hrow). apply Kd. now apply keep_last_incl.
    + destruct (IH w2 G2 R2) as (w3 & E3 & K3); [now rewrite P2|intros n Hi; apply Hall; now right|].
      exists w3. split; [|exact K3]. unfold bindM at 1.
      match goal with |- context [match ?m with _ => _ end] => assert (Ef : m = (Ok tt, w2)) end.
      { unfold bindM at 1. unfold lift at 1. rewrite (get_col_runs dd name Rdd Hin). unfold bindM at 1. unfold get_attribute, bindM at 1, deref at 1. rewrite P1. unfold po' at 1. cbn [p_attrs]. rewrite Ex. exact E. }
      rewrite Ef. exact E3.
Qed.

(** ** What [attribute.add] gives *)
Definition signed (subtract : bool) (v : val) : val := if subtract then match v with VNum q => VNum (- q)%Qc | _ => v end else v.
Lemma attr_add_na t ids added t' : attr_add t ids added = Ok t' -> dget VNA t' = dget VNA t.
Proof.
  unfold attr_add. intros H. destruct (negb _); [discriminate|]. destruct (negb _); [discriminate|]. apply bind_ok in H as (g & Eg & H). destruct (negb _); [discriminate|].
  destruct (group_sums_ok _ _ _ Eg) as [K _].
  assert (Ng : dget VNA g = None). { apply dget_None. rewrite K. tauto. }
  clear K Eg. revert t' H. induction t as [|[k v] t IH]; intros t' H; cbn [mapr] in H; [injection H as <-; reflexivity|].
  apply bind_ok in H as ([k1 v1] & E1 & H). apply bind_ok in H as (t1 & E2 & H). injection H as <-. cbn [fst snd] in E1.
  assert (k1 = k /\ (k = VNA -> v1 = v)) as [-> Hv].
  { destruct (dget k g) eqn:E.
    - apply bind_ok in E1 as (y & _ & E1). injection E1 as <- _. split; [reflexivity|]. intros ->. congruence.
    - injection E1 as <- <-. auto. }
  cbn [dget]. destruct (keqb_spec VNA k) as [<-|_]; [now rewrite Hv|]. now apply IH.
Qed.
Lemma total_grows (ok : val -> Prop) k pairs : (forall u k' q, In (k', VNum q) pairs -> ok (VNum u) -> ok (VNum (u + q)%Qc)) ->
  forall u, ok (VNum u) -> ok (VNum (u + SpecAttribute.total k pairs)%Qc).
Proof.
  induction pairs as [|[k' v] pairs IH]; intros H u Hu; cbn [SpecAttribute.total fold_right].
  - now rewrite Qcplus_0_r.
  - assert (Hr : forall u k' q, In (k', VNum q) pairs -> ok (VNum u) -> ok (VNum (u + q)%Qc)) by (intros; eapply H; [right; eassumption|assumption]).
    fold (SpecAttribute.total k pairs). destruct v as [| |n| |]; try now apply IH. destruct (val_eqb k' k); [|now apply IH].
    replace (u + (n + SpecAttribute.total k pairs))%Qc with ((u + n) + SpecAttribute.total k pairs)%Qc by ring. apply IH; [exact Hr|]. eapply H; [now left|exact Hu].
Qed.
Lemma total_once k v pairs : NoDup (map fst pairs) -> In (k, VNum v) pairs -> SpecAttribute.total k pairs = v.
Proof.
  induction pairs as [|[k' u] pairs IH]; cbn [map fst]; intros N Hin; [destruct Hin|]. inversion N as [|? ? N1 N2]; subst. cbn [SpecAttribute.total fold_right]. fold (SpecAttribute.total k pairs).
  destruct Hin as [[= -> ->]|Hin].
  - change (val_eqb k k) with (keqb k k). rewrite keqb_refl. rewrite total_absent by exact N1. now rewrite Qcplus_0_r.
  - assert (Nk : k' <> k) by (intros ->; apply N1; apply (in_map fst) in Hin; exact Hin).
    rewrite (IH N2 Hin). destruct u; try reflexivity. change (val_eqb k' k) with (keqb k' k). destruct (keqb_spec k' k); [contradiction|reflexivity].
Qed.

(** ** Operations *)
Lemma seq_map_nth {A B} (f : nat -> B) (g : A -> B) l : (forall k x, nth_error l k = Some x -> f k = g x) -> map f (seq 0 (length l)) = map g l.
Proof.
  intros H. apply nth_error_ext. intros k. rewrite !nth_error_map. destruct (nth_error l k) as [x|] eqn:E.
  - assert (k < length l) by (apply nth_error_Some; congruence). rewrite (nth_error_nth' _ 0) by (now rewrite seq_length). rewrite seq_nth by assumption. cbn. now rewrite (H k x E).
  - apply nth_error_None in E. replace (nth_error (seq 0 (length l)) k) with (@None nat); [reflexivity|]. symmetry. apply nth_error_None. now rewrite seq_length.
Qed.

Section Runs.
  Context (kinds : nat -> val -> val -> Prop) (w0 : world) (members : list val) (member : string) (possible : record -> Prop).
  Hypothesis Wf : forall a s, nth_error (w_stories w0) a = Some s -> scheduled w0 s.

  Section World.
  Context (w : world) (Fi : fine kinds w0 w).

  Lemma story_now a : story_in w0 a -> exists s0 s, nth_error (w_stories w0) a = Some s0 /\ nth_error (w_stories w) a = Some s /\ static s0 s.
  Proof. intros [s0 H0]. destruct (proj2 (sc_static _ _ (fi_since _ _ _ Fi)) a s0 H0) as (s & Hs & T). eauto. Qed.
  Lemma rel_now r : related_to w0 r -> exists rel, nth_error (w_rels w) r = Some rel /\ reachable rel.
  Proof.
    intros [rel0 H0]. destruct (nth_error (w_rels w) r) as [rel|] eqn:E.
    - exists rel. split; [reflexivity|]. eapply Forall_nth_error; [apply (fi_since _ _ _ Fi)|exact E].
    - apply nth_error_None in E. rewrite (sc_rels _ _ (fi_since _ _ _ Fi)) in E. apply nth_error_None in E. congruence.
  Qed.
  Lemma reset_now a ids : story_in w0 a -> match ids with Some l => NoDup l /\ (forall i, In i l -> member_of w0 a i) | None => True end ->
    exists w', story_reset a ids w = (Ok tt, w').
  Proof.
    intros Hin Hi. destruct (story_now a Hin) as (s0 & s & H0 & Hs & T). destruct (Wf a s0 H0) as (Nd & Dd & _ & Dp & g0 & Hg).
    destruct T as (_ & _ & _ & T4 & _ & T6 & T7 & _ & T9).
    assert (exists g, nth_error (w_tgens w) (st_tgen s) = Some g) as [g Eg].
    { rewrite T4. destruct (nth_error (w_tgens w) (st_tgen s0)) eqn:E; [eauto|]. apply nth_error_None in E. rewrite (fi_tgens _ _ _ Fi) in E. apply nth_error_None in E. congruence. }
    destruct (reset_total s g ids) as (s' & g' & E).
    - now rewrite T9.
    - now rewrite T6.
    - apply (fi_states _ _ _ Fi a s Hs).
    - intros i st q. rewrite T9, T6. unfold declared. rewrite T7. apply Dp.
    - destruct ids as [l|]; [|exact I]. destruct Hi as [Hn Hi]. split; [exact Hn|]. intros i K. destruct (Hi i K) as (s1 & H1 & Hm). rewrite T9. congruence.
    - unfold story_reset, bindM, deref, lift. rewrite Hs, Eg, E. eexists. reflexivity.
  Qed.
  Lemma members_known a i s : member_of w0 a i -> nth_error (w_stories w) a = Some s -> In i (st_ids s).
  Proof.
    intros (s0 & H0 & Hm) Hs. destruct (story_now a (ex_intro _ s0 H0)) as (s1 & s2 & H1 & H2 & T). destruct T as (_ & _ & _ & _ & _ & _ & _ & _ & T9). congruence.
  Qed.
  Lemma force_now a ids : story_in w0 a -> (forall i, In i ids -> member_of w0 a i) -> exists w', story_force a ids w = (Ok tt, w').
  Proof.
    intros Hin Hi. destruct (story_now a Hin) as (s0 & s & H0 & Hs & T). unfold story_force, bindM, deref. rewrite Hs. unfold force_act_next.
    destruct ids as [|i ids]; [eexists; reflexivity|]. rewrite known_In; [|intros j Hj; eapply members_known; eauto]. eexists. reflexivity.
  Qed.
  Lemma tick_now a ids : story_in w0 a -> (forall i, In i ids -> member_of w0 a i) -> exists w', story_tick a ids w = (Ok tt, w').
  Proof.
    intros Hin Hi. destruct (story_now a Hin) as (s0 & s & H0 & Hs & T). destruct (tick_runs s ids) as (s' & E); [intros j Hj; eapply members_known; eauto|].
    unfold story_tick, bindM, deref, lift. rewrite Hs, E. eexists. reflexivity.
  Qed.
  Lemma transit_now a ids states : story_in w0 a -> (forall i, In i ids -> member_of w0 a i) -> length ids = length states ->
    (forall st, In st states -> state_in w0 a st) -> forall w1, w_stories w1 = w_stories w -> exists w', story_transit a ids states w1 = (Ok tt, w') /\ in_states w'.
  Proof.
    intros Hin Hi Hl Hst w1 Ew. destruct (story_now a Hin) as (s0 & s & H0 & Hs & T). unfold story_transit, bindM, deref, lift. rewrite Ew, Hs. unfold transit_to_state.
    rewrite known_In; [|intros j Hj; eapply members_known; eauto]. cbn [negb]. rewrite (proj2 (Nat.eqb_eq _ _) Hl). cbn [negb]. eexists. split; [reflexivity|].
    intros b sb Hb i st r Hir. cbn [w_stories set_stories] in Hb. rewrite Ew, nth_error_set_nth in Hb. destruct (Nat.eqb_spec a b) as [<-|Nb].
    - rewrite Hs in Hb. injection Hb as <-. cbn [with_timer st_timer st_states] in *. apply in_map_iff in Hir as ([i' [st' r']] & [= <- <- <-] & Hir).
      destruct (dget_last i' (combine ids states)) as [x|] eqn:E; [|eapply (fi_states _ _ _ Fi); eauto].
      unfold dget_last in E. apply dget_In in E. apply in_rev in E. apply in_combine_r in E. destruct (Hst x E) as (s1 & H1 & Hx).
      destruct T as (_ & _ & _ & _ & _ & T6 & _). rewrite T6. congruence.
    - eapply (fi_states _ _ _ Fi); eauto.
  Qed.

  Context (cols : list string) (d : df).
  Hypothesis R : rectangular d.
  Hypothesis Hc : df_cols d = cols.
  Hypothesis Nd : NoDup (df_index d).
  Hypothesis Hmc : In member cols.
  Hypothesis Hm : forall row, In row (df_rows d) -> row_of d row member = fst row /\ In (fst row) members.
  Hypothesis Hp : forall row, In row (df_rows d) -> possible (row_of d row).

  Lemma col_runs c : In c cols -> get_col d c = Ok (map (fun row => (fst row, row_of d row c)) (df_rows d)).
  Proof. intros H. apply get_col_runs; [exact R|now rewrite Hc]. Qed.
  Lemma column_joins n vs : length vs = df_len d -> exists out d', column d n vs = Ok out /\ add_columns JLeft d out = Ok d'.
  Proof. now apply column_runs. Qed.

  Ltac cells v H := apply in_map_iff in H as (?row & <- & H).

  Lemma apply_now sources named f : incl sources cols ->
    (forall rows : list record, Forall possible rows -> length (f (map (fun c => map (fun row => row c) rows) sources)) = length rows) ->
    exists d' l w', run_op (OpApply sources [named] (series_f f)) d w = (Ok (d', l), w').
  Proof.
    intros Hs Hf. cbn [run_op]. unfold transformed, bindM, lift, apply_output. rewrite select_cols_runs; [|apply R|now rewrite Hc]. cbn [bind]. unfold series_f. cbn [df_cols df_rows].
    rewrite (seq_map_nth _ (fun c => map (fun row => row_of d row c) (df_rows d)) sources).
    2:{ intros k c Hk. rewrite map_map. apply map_ext. intros row. cbn [snd]. rewrite (nth_error_nth (map (cell (df_cols d) (snd row)) sources) k VNA (x := row_of d row c)); [reflexivity|].
        rewrite nth_error_map, Hk. reflexivity. }
    set (out := f (map (fun c => map (fun row => row_of d row c) (df_rows d)) sources)) in *.
    assert (L : length out = length (df_rows d)).
    { rewrite <- (map_length (row_of d) (df_rows d)). rewrite <- (Hf (map (row_of d) (df_rows d))); [|apply Forall_forall; intros x Hx; apply in_map_iff in Hx as (row & <- & Hx); now apply Hp].
      unfold out. do 2 f_equal. apply map_ext. intros c. now rewrite map_map. }
    unfold df_len at 1, df_index. cbn [df_rows]. rewrite map_length, (proj2 (Nat.eqb_eq _ _) L). cbn [bind df_cols df_rows]. rewrite map_map. cbn [fst].
    fold (df_index d). cbn [nodupb negb]. cbn.
    destruct (join_runs JLeft d (mkDf [named] (combine (df_index d) (map (fun v => [v]) out))) Nd) as (d' & E).
    - unfold df_index at 1. cbn [df_rows]. rewrite map_fst_combine; [exact Nd|]. unfold df_index. now rewrite !map_length.
    - change (fun x : val * list val => fst x) with (@fst val (list val)). unfold df_index in E. rewrite E. eexists _, _, _. reflexivity.
  Qed.

  Lemma frame_now sources named f : incl sources cols ->
    (forall d, df_cols d = sources -> NoDup (df_index d) -> (forall line, In line (df_rows d) -> exists row, possible row /\ snd line = map row sources) ->
      exists out, f d = Ok out /\ NoDup (df_cols out) /\ NoDup (df_index out)) ->
    exists d' l w', run_op (OpApply sources named f) d w = (Ok (d', l), w').
  Proof.
    intros Hs Hf. cbn [run_op]. unfold transformed, bindM, lift, apply_output. rewrite select_cols_runs; [|apply R|now rewrite Hc]. cbn [bind].
    match goal with |- context [f ?s] => destruct (Hf s) as (out & E & N1 & N2) end.
    - reflexivity.
    - unfold df_index. cbn [df_rows]. rewrite map_map. exact Nd.
    - cbn [df_rows]. intros line Hl. apply in_map_iff in Hl as (row & <- & Hrow). exists (row_of d row). split; [now apply Hp|reflexivity].
    - rewrite E. cbn [bind]. rewrite (proj2 (nodupb_NoDup _) N1). cbn [negb].
      destruct (join_runs JLeft d (mkDf (rename_first (df_cols out) named) (df_rows out)) Nd N2) as (d' & E2). rewrite E2. eexists _, _, _. reflexivity.
  Qed.

  Lemma tables_set x t t' : nth_error (w_attrs w) x = Some t -> (NoDup (map fst t) -> NoDup (map fst t') /\ incl (map fst t) (map fst t')) ->
    (account w0 x -> (forall k v, In (k, v) t -> numeric v) -> forall k v, In (k, v) t' -> numeric v) -> tables_grown w0 (set_attrs (set_nth x t' (w_attrs w)) w).
  Proof. apply grown_set, Fi. Qed.

  Lemma respects_set x t t' : nth_error (w_attrs w) x = Some t -> (forall k v, In (k, v) t' -> kinds x k v) ->
    respects kinds (set_attrs (set_nth x t' (w_attrs w)) w).
  Proof. apply kinds_set, Fi. Qed.

  Lemma update_now x f copied : incl [f; copied] cols -> single_valued w0 x -> ~ account w0 x ->
    (exists owner, forall row, possible row -> owner (row f) = row member) -> (forall row, possible row -> kinds x (row f) (row copied)) ->
    exists d' l w', run_op (OpAttrUpdate x f copied) d w = (Ok (d', l), w') /\ tables_grown w0 w' /\ respects kinds w'.
  Proof.
    intros Hcp (t0 & E0 & N0) Na (owner & Ho) Hkd. destruct (proj1 (fi_tables _ _ _ Fi) _ _ E0 N0) as (t & Et & Nt & Hk).
    cbn [run_op]. unfold side_effect, if_rows. destruct (df_rows d) as [|r0 rs] eqn:Ed; [eexists _, _, _; split; [reflexivity|split; apply Fi]|]. rewrite <- Ed in *.
    unfold update_attr, bindM, lift, deref, put_attr, modify. rewrite !col_runs by (apply Hcp; cbn; tauto). rewrite Et, !map_map. cbn [snd].
    set (ser := combine _ _). assert (Ns : NoDup (dkeys ser)).
    { unfold ser, dkeys. rewrite map_fst_combine by now rewrite !map_length. apply (NoDup_map_inv owner). rewrite map_map. erewrite map_ext_in; [exact Nd|].
      intros row Hrow. cbv beta. rewrite (Ho (row_of d row)) by now apply Hp. now apply Hm. }
    destruct (attr_update_ok t ser Nt Ns) as (t' & E & Ek & Nk & Hv). rewrite E. eexists _, _, _. split; [reflexivity|]. split.
    - apply (tables_set x t t' Et); [|intros A; contradiction]. intros _. split; [exact Nk|]. intros k Hin. change (map fst t') with (dkeys t'). rewrite Ek. apply index_union_In. now left.
    - apply (respects_set x t t' Et). intros k v Hin. apply (In_dget _ _ _ Nk) in Hin. rewrite Hv in Hin. destruct (dget k ser) as [v'|] eqn:Es.
      + injection Hin as ->. apply dget_In in Es. unfold ser in Es. clear - Es Hkd Hp. 
        assert (X : combine (map (fun row => row_of d row f) (df_rows d)) (map (fun row => row_of d row copied) (df_rows d)) = map (fun row => (row_of d row f, row_of d row copied)) (df_rows d)).
        { clear. induction (df_rows d) as [|row rows IH]; cbn [map combine]; [reflexivity|]. now rewrite IH. }
        rewrite X in Es. apply in_map_iff in Es as (row & [= <- <-] & Hrow). apply Hkd. now apply Hp.
      + apply (fi_kinds _ _ _ Fi x t); [exact Et|]. now apply dget_In.
  Qed.

  Lemma attr_add_numeric t ids added t' : attr_add t ids added = Ok t' -> (forall k v, In (k, v) t -> numeric v) -> forall k v, In (k, v) t' -> numeric v.
  Proof.
    unfold attr_add. intros H Hn. destruct (negb _); [discriminate|]. destruct (negb _); [discriminate|]. apply bind_ok in H as (g & _ & H). destruct (negb _); [discriminate|].
    intros k v Hin. apply mapr_ok_Forall2 in H. destruct (Forall2_In_r _ _ _ _ H Hin) as ([k1 v1] & H1 & E). cbn [fst snd] in E. specialize (Hn _ _ H1).
    destruct (dget k1 g); [|injection E as <- <-; exact Hn]. apply bind_ok in E as (x & Ex & E). injection E as <- <-. destruct v1; cbn in Ex; try discriminate; try contradiction; injection Ex as <-; exact I.
  Qed.
  Lemma add_table x f added sub : incl [f; added] cols -> account w0 x -> (forall row, In row (df_rows d) -> numeric (row_of d row added)) ->
    (forall t row, nth_error (w_attrs w0) x = Some t -> In row (df_rows d) -> row_of d row f = VNA \/ In (row_of d row f) (map fst t)) ->
    exists d' l w', run_op (OpAttrAdd x f added sub) d w = (Ok (d', l), w') /\
      (w' = w \/ exists t t', nth_error (w_attrs w) x = Some t /\ NoDup (map fst t) /\
        attr_add t (map (fun row => row_of d row f) (df_rows d)) (map (fun row => signed sub (row_of d row added)) (df_rows d)) = Ok t' /\
        w' = set_attrs (set_nth x t' (w_attrs w)) w /\ tables_grown w0 w').
  Proof.
    intros Hi Ac Hn Hf. pose proof Ac as ((t0 & E0 & N0 & _) & _). destruct (proj1 (fi_tables _ _ _ Fi) _ _ E0 N0) as (t & Et & Nt & Hk).
    destruct (proj2 (fi_tables _ _ _ Fi) x Ac) as (t1 & Et1 & Hnum). assert (t1 = t) by congruence. subst t1.
    cbn [run_op]. unfold side_effect, if_rows. destruct (df_rows d) as [|r0 rs] eqn:Ed; [eexists _, _, _; split; [reflexivity|now left]|]. rewrite <- Ed in *.
    unfold bindM, lift, deref, put_attr, modify. rewrite !col_runs by (apply Hi; cbn; tauto).
    set (vs := map (fun row => (fst row, row_of d row added)) (df_rows d)).
    assert (Ev : (if sub then mapr (fun kv : val * val => match snd kv with VNum q => Ok (VNum (- q)%Qc) | VNA => Ok VNA | _ => Err Unmodelled end) vs else Ok (map snd vs)) =
      Ok (map (fun row => signed sub (row_of d row added)) (df_rows d))).
    { unfold vs. destruct sub; [|now rewrite map_map]. clear - Hn. induction (df_rows d) as [|row rows IH]; cbn [map mapr]; [reflexivity|].
      rewrite IH by (intros r Hr; apply Hn; now right). specialize (Hn row (or_introl eq_refl)). cbn [snd signed]. destruct (row_of d row added); try contradiction; reflexivity. }
    rewrite Ev, Et, !map_map. cbn [snd].
    destruct (attr_add_runs t (map (fun row => row_of d row f) (df_rows d)) (map (fun row => signed sub (row_of d row added)) (df_rows d)) Nt) as (t' & E).
    - now rewrite !map_length.
    - intros v Hv. apply in_map_iff in Hv as (row & <- & Hrow). specialize (Hn row Hrow). destruct sub; cbn [signed]; [|exact Hn]. destruct (row_of d row added); cbn; auto.
    - exact Hnum.
    - intros i Hin Na. apply in_map_iff in Hin as (row & <- & Hrow). destruct (Hf _ _ E0 Hrow) as [K|K]; [contradiction|now apply Hk].
    - rewrite E. eexists _, _, _. split; [reflexivity|]. right. exists t, t'. split; [reflexivity|]. split; [exact Nt|]. split; [exact E|]. split; [reflexivity|].
      apply (tables_set x t t' Et).
      + intros _. destruct (attr_add_ok _ _ _ _ E) as [Ek _]. change (map fst t') with (dkeys t'). rewrite Ek. split; [exact Nt|apply incl_refl].
      + intros _ K. eapply attr_add_numeric; eauto.
  Qed.

  Lemma added_kinds x t t' ids values : nth_error (w_attrs w) x = Some t -> NoDup (map fst t) -> attr_add t ids values = Ok t' ->
    (forall k v, kinds x k v -> exists q, v = VNum q) ->
    (forall k u, k <> VNA -> dget k t = Some (VNum u) -> kinds x k (VNum u) -> kinds x k (VNum (u + SpecAttribute.total k (combine ids values))%Qc)) ->
    respects kinds (set_attrs (set_nth x t' (w_attrs w)) w).
  Proof.
    intros Et Nt E Hq H. apply (respects_set x t t' Et). destruct (attr_add_ok _ _ _ _ E) as [Ek Hv]. intros k v Hin.
    assert (Nt' : NoDup (map fst t')) by (change (map fst t') with (dkeys t'); now rewrite Ek). apply (In_dget _ _ _ Nt') in Hin.
    assert (Kt : forall k v, dget k t = Some v -> kinds x k v) by (intros k1 v1 G; apply dget_In in G; eapply (fi_kinds _ _ _ Fi); eauto).
    destruct (key_dec k VNA) as [->|N].
    - apply Kt. now rewrite <- (attr_add_na _ _ _ _ E).
    - destruct (dget k t) as [u|] eqn:Eu.
      + destruct (Hq k u (Kt _ _ Eu)) as (q & ->). rewrite (proj1 (Hv k N) q Eu) in Hin. injection Hin as <-. apply H; auto.
      + apply dget_None in Eu. rewrite <- Ek in Eu. apply dget_In in Hin. exfalso. apply Eu. apply (in_map fst) in Hin. exact Hin.
  Qed.

  Lemma add_now x f added sub : incl [f; added] cols -> account w0 x ->
    ((forall k v, numeric v -> kinds x k v) \/
     sub = false /\ (forall k v, kinds x k v -> exists q, v = VNum q) /\
     forall k u row q, kinds x k (VNum u) -> possible row -> row added = VNum q -> kinds x k (VNum (u + q)%Qc)) ->
    (forall row, possible row -> numeric (row added)) ->
    (forall t row, nth_error (w_attrs w0) x = Some t -> possible row -> row f = VNA \/ In (row f) (map fst t)) ->
    exists d' l w', run_op (OpAttrAdd x f added sub) d w = (Ok (d', l), w') /\ tables_grown w0 w' /\ respects kinds w'.
  Proof.
    intros Hi Ac Hkd Hn Hf. destruct (add_table x f added sub Hi Ac) as (d' & l & w' & E & X); [auto|eauto|].
    exists d', l, w'. split; [exact E|]. destruct X as [->|(t & t' & Et & Nt & Ea & -> & G)]; [split; apply Fi|]. split; [exact G|].
    destruct Hkd as [Hkd|(-> & Hq & Hg)].
    - apply (respects_set x t t' Et). intros k v Hin. apply Hkd. eapply attr_add_numeric; [exact Ea| |exact Hin].
      destruct (proj2 (fi_tables _ _ _ Fi) x Ac) as (t1 & Et1 & Hnum). assert (t1 = t) by congruence. now subst t1.
    - apply (added_kinds x t t' _ _ Et Nt Ea Hq). intros k u _ _ Hu. apply (total_grows (kinds x k)); [|exact Hu].
      intros u' k' q Hin Hu'. apply in_combine_r in Hin. apply in_map_iff in Hin as (row & Er & Hrow). cbn [signed] in Er. eapply Hg; [exact Hu'|apply Hp; exact Hrow|exact Er].
  Qed.

  (** Members take from their account all that is there. *)
  Lemma settle_now x named : incl [member; named] cols -> account w0 x -> (forall k v, kinds x k v -> exists q, v = VNum q) -> (forall k, kinds x k (VNum (Q2Qc 0))) ->
    (forall t i, nth_error (w_attrs w0) x = Some t -> In i members -> In i (map fst t)) ->
    (forall t row, nth_error (w_attrs w) x = Some t -> In row (df_rows d) -> dget (fst row) t = Some (row_of d row named)) ->
    exists d' l w', run_op (OpAttrAdd x member named true) d w = (Ok (d', l), w') /\ tables_grown w0 w' /\ respects kinds w'.
  Proof.
    intros Hi Ac Hq H0 Hk Hf.
    assert (Hv : forall row, In row (df_rows d) -> exists q, row_of d row named = VNum q).
    { intros row Hrow. destruct (proj2 (fi_tables _ _ _ Fi) x Ac) as (t & Et & _). pose proof (Hf t row Et Hrow) as K. apply dget_In in K. eapply Hq, (fi_kinds _ _ _ Fi); eauto. }
    destruct (add_table x member named true Hi Ac) as (d' & l & w' & E & X).
    { intros row Hrow. destruct (Hv row Hrow) as (q & ->). exact I. }
    { intros t row Et Hrow. right. destruct (Hm row Hrow) as [-> K]. eapply Hk; eauto. }
    exists d', l, w'. split; [exact E|]. destruct X as [->|(t & t' & Et & Nt & Ea & -> & G)]; [split; apply Fi|]. split; [exact G|].
    apply (added_kinds x t t' _ _ Et Nt Ea Hq). intros k u Nk Hu Ku.
    assert (Ec : combine (map (fun row => row_of d row member) (df_rows d)) (map (fun row => signed true (row_of d row named)) (df_rows d)) =
      map (fun row => (fst row, signed true (row_of d row named))) (df_rows d)).
    { assert (Hm' : forall row, In row (df_rows d) -> row_of d row member = fst row) by (intros row Hrow; now apply Hm). clear - Hm'.
      induction (df_rows d) as [|row rows IH]; cbn [map combine]; [reflexivity|]. rewrite IH by (intros r Hr; apply Hm'; now right). now rewrite (Hm' row (or_introl eq_refl)). }
    rewrite Ec. set (pairs := map _ _). assert (Np : NoDup (map fst pairs)) by (unfold pairs; rewrite map_map; exact Nd).
    destruct (in_dec key_dec k (map fst pairs)) as [Hin|Hin].
    - unfold pairs in Hin. rewrite map_map in Hin. cbn [fst] in Hin. apply in_map_iff in Hin as (row & <- & Hrow).
      assert (Er : row_of d row named = VNum u) by (specialize (Hf t row Et Hrow); congruence).
      rewrite (total_once (fst row) (- u)%Qc pairs Np).
      + replace (u + - u)%Qc with (Q2Qc 0); [apply H0|]. change (Q2Qc 0) with 0%Qc. ring.
      + unfold pairs. apply in_map_iff. exists row. rewrite Er. split; [reflexivity|exact Hrow].
    - rewrite (total_absent k pairs Hin), Qcplus_0_r. exact Ku.
  Qed.

  Lemma pop_now p f copy : of_story w0 (OpPopUpdate p f copy) -> incl (f :: map snd copy) cols -> NoDup (map fst copy) ->
    (exists po, nth_error (w_pops w0) p = Some po /\ (forall name, In name (map fst copy) <-> In name (map fst (p_attrs po))) /\
      forall name copied x, In (name, copied) copy -> dget name (p_attrs po) = Some x ->
        single_valued w0 x /\ forall row, possible row -> kinds x (row f) (row copied)) ->
    exists d' l w', run_op (OpPopUpdate p f copy) d w = (Ok (d', l), w') /\ tables_grown w0 w' /\ respects kinds w'.
  Proof.
    intros So Hi Nc (po0 & E0 & Hn & Hx).
    pose proof (sc_shape _ _ (fi_since _ _ _ Fi)) as (_ & _ & _ & Sp & _). specialize (Sp p). rewrite E0 in Sp. cbn in Sp.
    destruct (nth_error (w_pops w) p) as [po|] eqn:Ep; [|discriminate]. injection Sp as Sp.
    cbn [run_op]. unfold side_effect.
    assert (Ec : mapr (fun af : string * string => get_col d (snd af)) copy = Ok (map (fun af => map (fun row => (fst row, row_of d row (snd af))) (df_rows d)) copy)).
    { assert (Hi' : incl (map snd copy) cols) by (intros c Hin; apply Hi; now right). clear - Hi' R Hc. induction copy as [|[a c] copy IH]; cbn [mapr map]; [reflexivity|].
      cbn [snd]. rewrite col_runs by (apply Hi'; now left). cbn [bind]. rewrite IH by (intros z Hz; apply Hi'; now right). reflexivity. }
    set (src := mkDf (map fst copy) (map (fun row => (row_of d row f, map (fun af : string * string => row_of d row (snd af)) copy)) (df_rows d))).
    assert (Es : mkDf (map fst copy) (rows_of (map snd (map (fun row => (fst row, row_of d row f)) (df_rows d)))
      (map (map snd) (map (fun af : string * string => map (fun row => (fst row, row_of d row (snd af))) (df_rows d)) copy))) = src).
    { unfold src. f_equal. rewrite !map_map. cbn [snd].
      replace (map (fun x : string * string => map snd (map (fun row => (fst row, row_of d row (snd x))) (df_rows d))) copy) with (map (fun af : string * string => map (fun row => row_of d row (snd af)) (df_rows d)) copy).
      - apply (rows_of_map (fun row => row_of d row f) (fun (af : string * string) row => row_of d row (snd af))).
      - apply map_ext. intros af. now rewrite map_map. }
    destruct (pop_update_now kinds w0 w p po src (fi_tables _ _ _ Fi) (fi_kinds _ _ _ Fi) Ep) as (w' & E & K).
    - split; [exact Nc|]. intros row Hrow. unfold src in Hrow. cbn [df_rows] in Hrow. apply in_map_iff in Hrow as (r & <- & _). cbn [snd src df_cols]. now rewrite !map_length.
    - cbn [src df_cols]. rewrite Sp. exact Hn.
    - cbn [src df_cols]. rewrite Sp. intros name x Hin Ex. apply in_map_iff in Hin as ([name' copied] & Hname & Hin). cbn [fst] in Hname. subst name'.
      destruct (Hx name copied x Hin Ex) as [Sv Kd]. split; [exact Sv|]. split.
      + intros [_ A]. destruct So as (a & s & Hs & Ho). specialize (A a s _ _ Hs Ho (part_self _)). cbn beta iota in A. apply A. cbn [changes]. right. exists po0, name, x. split; [exact E0|]. split; [now apply dget_In|reflexivity].
      + intros row Hrow. unfold src in Hrow. cbn [df_rows] in Hrow. apply in_map_iff in Hrow as (r & <- & Hr'). cbn [fst].
        replace (row_of src _ name) with (row_of d r copied); [apply Kd, Hp, Hr'|].
        unfold row_of at 2. cbn [src df_cols snd]. symmetry. clear - Nc Hin. induction copy as [|[n c] copy IH]; [destruct Hin|]. cbn [map fst snd cell].
        inversion Nc as [|? ? N1 N2]; subst. destruct Hin as [[= -> ->]|Hin].
        * now rewrite String.eqb_refl.
        * destruct (String.eqb_spec name n) as [->|_]; [|now apply IH]. exfalso. apply N1. apply (in_map fst) in Hin. exact Hin.
    - unfold bindM at 1. unfold bindM at 1. unfold lift at 1. rewrite Ec. unfold bindM at 1. unfold lift at 1. rewrite col_runs by (apply Hi; now left). rewrite Es, E.
      eexists _, _, _. split; [reflexivity|exact K].
  Qed.

  Lemma lookup_now p from select : In from cols -> NoDup (map snd select) -> (forall c, In c (map snd select) -> ~ In c cols) ->
    (forall attribute named, In (attribute, named) select ->
      exists po x t, nth_error (w_pops w0) p = Some po /\ dget attribute (p_attrs po) = Some x /\ nth_error (w_attrs w0) x = Some t /\ NoDup (map fst t) /\
        ((forall row, possible row -> In (row from) (map fst t) /\ forall l, row from <> VList l) \/
         (forall row, possible row -> exists l, row from = VList l /\ incl l (map fst t)))) ->
    exists d' l w', run_op (OpLookup p from select) d w = (Ok (d', l), w').
  Proof.
    intros Hin Nn Hf H. cbn [run_op]. unfold transformed, lookup_output.
    assert (N1 : nodupb (from :: map snd select) = true). { apply nodupb_NoDup. constructor; [|exact Nn]. intros K. now apply (Hf from). }
    rewrite N1. cbn [negb]. set (cells := map (fun row => row_of d row from) (df_rows d)).
    assert (X : exists cs, lookup_columns p cells select w = (Ok cs, w)).
    { clear Nn Hf N1. induction select as [|[a n] select IH]; cbn [lookup_columns]; [eexists; reflexivity|].
      destruct IH as (cs & Ecs); [intros a' n' Hi; apply (H a' n'); now right|].
      destruct (H a n (or_introl eq_refl)) as (po0 & x & t0 & E1 & E2 & E3 & N3 & K). destruct (proj1 (fi_tables _ _ _ Fi) _ _ E3 N3) as (t & Et & Nt & Hk).
      pose proof (sc_shape _ _ (fi_since _ _ _ Fi)) as (_ & _ & _ & Sp & _). specialize (Sp p). rewrite E1 in Sp. cbn in Sp.
      destruct (nth_error (w_pops w) p) as [po|] eqn:Ep; [|discriminate]. injection Sp as Sp.
      unfold get_attribute_values, get_attribute, bindM, deref, lift. rewrite Ep, Sp, E2, Et. cbn [attr_get_values]. rewrite (proj2 (nodupb_NoDup _) Nt : nodupb (dkeys t) = true). cbn [negb].
      assert (Cf : forall ids, incl ids (map fst t0) -> exists vs, cells_for t ids = Ok vs).
      { induction ids as [|i ids IH]; intros Hi; cbn [cells_for]; [eauto|]. assert (Ki : In i (dkeys t)) by (apply Hk, Hi; now left).
        destruct (dget i t) eqn:Eg; [|apply dget_None in Eg; contradiction]. destruct IH as (vs & ->); [intros z Hz; apply Hi; now right|]. cbn. eauto. }
      assert (Lc : exists c, lookup_column t cells = Ok c).
      { destruct K as [K|K].
        - assert (Hs : forall c, In c cells -> In c (map fst t0) /\ forall l, c <> VList l) by (intros c Hcl; apply in_map_iff in Hcl as (row & <- & Hrow); apply K, Hp, Hrow).
          destruct (Cf cells) as (vs & Ev); [intros c Hcl; now apply Hs|].
          assert (Ex : existsb (fun c => match c with VList _ => true | _ => false end) cells = false).
          { destruct (existsb _ cells) eqn:Ee; [|reflexivity]. apply existsb_exists in Ee as (c & Hcl & Ec). destruct c; try discriminate. exfalso. now apply (proj2 (Hs _ Hcl) l). }
          unfold lookup_column. destruct cells as [|c0 cs0]; [cbn; eauto|]. rewrite Ex, Ev. destruct c0; eauto. exfalso. now apply (proj2 (Hs _ (or_introl eq_refl)) l).
        - assert (Hs : forall c, In c cells -> exists l, c = VList l /\ incl l (map fst t0)) by (intros c Hcl; apply in_map_iff in Hcl as (row & <- & Hrow); apply K, Hp, Hrow).
          unfold lookup_column. destruct cells as [|c0 cs0]; [cbn; eauto|]. destruct (Hs c0 (or_introl eq_refl)) as (l0 & -> & _).
          assert (Y : exists ls, mapr as_list (VList l0 :: cs0) = Ok ls /\ forall l, In l ls -> incl l (map fst t0)).
          { clear - Hs. induction (VList l0 :: cs0) as [|c cs IH]; cbn [mapr]; [exists []; split; [reflexivity|intros l []]|].
            destruct (Hs c (or_introl eq_refl)) as (l & -> & Hl). destruct IH as (ls & -> & Hls); [intros z Hz; apply Hs; now right|]. cbn. exists (l :: ls). split; [reflexivity|]. intros z [<-|Hz]; auto. }
          destruct Y as (ls & -> & Hls). cbn [bind]. destruct (mapr_total (fun ids => let! vs := cells_for t ids in Ok (VList vs)) ls) as (c & E & _); [|eauto].
          intros ids Hids. destruct (Cf ids (Hls ids Hids)) as (vs & ->). cbn. eauto. }
      destruct Lc as (c & ->). rewrite Ecs. eexists. reflexivity. }
    destruct X as (cs & Ecs). unfold cells in Ecs. clear cells.
    destruct (df_rows d) as [|r0 rs] eqn:Ed.
    - destruct (join_runs JLeft d (mkDf (map snd select) []) Nd) as (d' & E); [constructor|]. unfold bindM, lift, ret. rewrite E. eexists _, _, _. reflexivity.
    - rewrite <- Ed in *. destruct (join_runs JLeft d (mkDf (map snd select) (rows_of (df_index d) cs)) Nd) as (d' & E).
      + unfold df_index at 1. cbn [df_rows]. unfold rows_of. rewrite map_map. replace (map _ (combine _ _)) with (df_index d); [exact Nd|].
        transitivity (map snd (combine (seq 0 (length (df_index d))) (df_index d))).
        * symmetry. apply map_snd_combine. now rewrite seq_length.
        * apply map_ext. now intros [k i].
      + unfold bindM, lift. rewrite col_runs by assumption. rewrite map_map. cbn [snd]. rewrite Ecs. unfold ret. rewrite E. eexists _, _, _. reflexivity.
  Qed.

  Lemma op_succeeds o new : of_story w0 o -> brings o new -> NoDup new -> (forall c, In c new -> ~ In c cols) -> incl (reads o) cols ->
    safe_on kinds w0 members member cols possible o ->
    exists d' l w', run_op o d w = (Ok (d', l), w') /\
      match o with OpTransit _ _ _ _ | OpBack _ _ => in_states w' | OpAttrUpdate _ _ _ | OpAttrAdd _ _ _ _ | OpPopUpdate _ _ _ => tables_grown w0 w' /\ respects kinds w' | _ => True end.
  Proof.
    intros So B Nn Hf Hr H. destruct o; cbn [safe_on] in H; try contradiction.
    - (* FieldLogger *) destruct exploded as [|? ?]; [|contradiction]. cbn [run_op]. unfold bindM, lift, emit_log. cbn [bind]. destruct cols0 as [|c0 cs].
      + eexists _, _, _. split; [reflexivity|exact I].
      + rewrite select_cols_runs; [|apply R|now rewrite Hc]. eexists _, _, _. split; [reflexivity|exact I].
    - (* DropRow *) destruct (drop_rows_runs d condition R) as (d' & E).
      + rewrite Hc. apply Hr. now left.
      + intros row Hrow. apply (H _ (Hp row Hrow)).
      + cbn [run_op]. unfold transformed, bindM, lift. rewrite E. eexists _, _, _. split; [reflexivity|exact I].
    - (* Apply *) destruct H as [(n & g & -> & -> & H)|H].
      + destruct (apply_now source_fields n g Hr H) as (d' & l & w' & E). rewrite E. eauto 6.
      + destruct (frame_now source_fields named_as f Hr H) as (d' & l & w' & E). rewrite E. eauto 6.
    - (* Timestamp *) assert (exists ds c', get_timestamp (w_clock w) (df_len d) random = Ok (ds, c') /\ length ds = df_len d) as (ds & c' & Et & L).
      { destruct random.
        - destruct (timestamps_total (w_clock w) (df_len d)) as (ds & c' & E); [rewrite (sc_step _ _ (fi_since _ _ _ Fi)); now apply H|]. exists ds, c'. split; [exact E|]. eapply timestamps_in_step; eauto.
        - cbn. eexists _, _. split; [reflexivity|apply repeat_length]. }
      destruct (column_joins named_as (map fmt ds)) as (out & d' & E1 & E2); [now rewrite map_length|].
      cbn [run_op]. unfold transformed, bindM, lift, get, modify, ret. rewrite Et, E1, E2. eexists _, _, _. split; [reflexivity|exact I].
    - (* Generate *)
      assert (Hs : never_refuses (w_gens w0) generator) by (destruct quantity; tauto).
      assert (X : exists qs, match quantity with None => Ok None | Some q => let! s := get_col d q in Ok (Some (map snd s)) end = Ok qs /\
        (forall l v, qs = Some l -> In v l -> exists k, v = vnat k) /\ forall l, qs = Some l -> length l = df_len d).
      { destruct quantity as [q|]; [|exists None; repeat split; discriminate]. rewrite col_runs by (apply Hr; now left). cbn [bind]. eexists. split; [reflexivity|]. split.
        - intros l v [= <-] Hv. rewrite map_map in Hv. cbn [snd] in Hv. apply in_map_iff in Hv as (row & <- & Hrow). apply H, Hp, Hrow.
        - intros l [= <-]. now rewrite !map_length. }
      destruct X as (qs & Eq & Hq & Lq).
      destruct (values_give (w_gens w0) (w_gens w) generator (df_len d) qs Hs (sc_gens _ _ (fi_since _ _ _ Fi)) Hq Lq) as (vs & h' & Ev & Lv).
      destruct (column_joins named_as vs Lv) as (out & d' & E1 & E2).
      cbn [run_op]. unfold transformed, bindM, lift, get, modify, ret. rewrite Eq, Ev, E1, E2. eexists _, _, _. split; [reflexivity|exact I].
    - (* GenerateDep *) destruct (nth_error (w_dgens w0) generator) as [dg0|] eqn:E0; [|contradiction].
      destruct (proj2 (sc_dgens _ _ (fi_since _ _ _ Fi)) _ _ E0) as (dg & Eg & Sd).
      set (obs := map (fun row => row_of d row observed) (df_rows d)).
      assert (X : exists vs dg' h', dgen_generate (w_gens w) dg obs = Ok (vs, dg', h') /\ length vs = df_len d).
      { assert (Lo : length obs = df_len d) by (unfold obs; now rewrite map_length).
        destruct dg0 as [v|pr b|e], dg as [v'|pr' b'|e']; cbn [same_dgen] in Sd; try contradiction; subst; cbn [dgen_generate].
        - eexists _, _, _. split; [reflexivity|]. now rewrite map_length.
        - destruct (draws uniform _ _) as [us st] eqn:Eu. apply draws_length in Eu. destruct (mapr_total pr' obs) as (ps & -> & Lp).
          + intros x Hx. apply in_map_iff in Hx as (row & <- & Hrow). apply H, Hp, Hrow.
          + cbn [bind]. eexists _, _, _. split; [reflexivity|]. rewrite map_length, combine_length. lia.
        - destruct H as [Hn H]. destruct (counts_total obs) as (ns & -> & Ln & Fn).
          + intros v Hv. apply in_map_iff in Hv as (row & <- & Hrow). apply H, Hp, Hrow.
          + cbn [bind]. destruct (calls_total (w_gens w0) (fun h n => gen_generate h e' n) ns) with (h := w_gens w) as (vss & h' & -> & Lv & _).
            * intros h n K Hn0. destruct (gen_gives _ _ _ _ Hn K Hn0) as (vs & h1 & E & L & K1 & _). eauto.
            * exact Fn.
            * apply (fi_since _ _ _ Fi).
            * cbn [bind]. eexists _, _, _. split; [reflexivity|]. rewrite map_length. lia. }
      destruct X as (vs & dg' & h' & Ev & Lv). destruct (column_joins named_as vs Lv) as (out & d' & E1 & E2).
      cbn [run_op]. unfold transformed, bindM, lift, get, modify, ret, deref. rewrite col_runs by (apply Hr; now left). rewrite map_map. cbn [snd]. fold obs.
      rewrite Eg, Ev. cbn [w_dgens set_gens]. rewrite E1, E2. eexists _, _, _. split; [reflexivity|exact I].
    - (* Neighbours *) destruct (rel_now rel H) as (re & Er & _).
      destruct (column_joins named_as (map (fun kv : val * val => vnat (neighbourhood_size re (snd kv))) (map (fun row => (fst row, row_of d row from)) (df_rows d)))) as (out & d' & E1 & E2);
        [now rewrite !map_length|].
      cbn [run_op]. unfold transformed, bindM, lift, get, modify, ret, deref. rewrite col_runs by (apply Hr; now left). rewrite Er, E1, E2. eexists _, _, _. split; [reflexivity|exact I].
    - (* SelectOne *) destruct weight as [|]; [contradiction|]. destruct H as [Hres Hs].
      assert (X : exists re, nth_error (w_rels w) rel = Some re /\ reachable re /\ (forall f t q, In (f, t, q) (stored re) -> (0 <= q)%Q) /\
        forall f, 2 <= length (tos_stored re f) -> exists t q, In (f, t, q) (stored re) /\ (0 < q)%Q).
      { destruct Hs as (re0 & E0 & K). destruct (rel_now rel) as (re & Er & Rr); [exists re0; exact E0|]. exists re. split; [exact Er|]. split; [exact Rr|].
        destruct K as [K|(St & K1 & K2)].
        - destruct (fi_weights _ _ _ Fi _ _ E0 K) as (re' & Er' & P). assert (re' = re) by congruence. subst re'. split.
          + intros f t q Hin. apply Qlt_le_weak. eapply P; exact Hin.
          + intros f Hl. destruct (tos_stored re f) as [|t l] eqn:Et; [cbn in Hl; lia|]. assert (Hin : In t (tos_stored re f)) by (rewrite Et; now left).
            unfold tos_stored in Hin. apply in_map_iff in Hin as ([[f' t'] q] & <- & Hin). unfold about in Hin. apply filter_In in Hin as [Hin Ef]. cbn [fst snd] in *.
            apply val_eqb_eq in Ef. subst f'. exists t', q. split; [exact Hin|]. eapply P; exact Hin.
        - destruct (items_stored _ _ _ _ (fi_since _ _ _ Fi) St Er) as ((re1 & E1 & Es) & _). assert (re1 = re0) by congruence. subst re1.
          unfold tos_stored in *. rewrite Es. auto. }
      destruct X as (re & Er & Rr & W1 & W2). set (froms := map (fun row => (fst row, row_of d row from)) (df_rows d)).
      destruct (select_one_total re (@Some series froms) pop discard one_to_one Rr W1 W2) as (rows & re' & E).
      assert (Nf : NoDup (map fst froms)) by (unfold froms; rewrite map_map; exact Nd).
      pose proof (select_one_indices _ _ _ _ _ _ _ _ Rr Nf E) as Ni.
      destruct (join_runs JInner d (mkDf [named_as] (map (fun '(i, _, to) => (i, [to])) rows)) Nd) as (d' & E2).
      { unfold df_index. cbn [df_rows]. rewrite map_map. erewrite map_ext; [exact Ni|]. now intros [[i f] t]. }
      cbn [run_op]. unfold transformed, call_select_one, bindM, lift, deref, put_rel, modify, ret, get. rewrite col_runs by (apply Hr; now left). fold froms. rewrite Hres, Er, E, E2.
      eexists _, _, _. split; [reflexivity|exact I].
    - (* SelectAll *) destruct H as [Hres Hrel]. destruct (rel_now rel Hrel) as (re & Er & _). cbn [run_op]. unfold transformed, bindM, lift, deref. rewrite Er. unfold select_all.
      rewrite Hres, (proj2 (nodupb_NoDup _) Nd). cbn [negb]. destruct (col_pos_ok from (df_cols d)) as (i & ->); [apply R|rewrite Hc; apply Hr; now left|].
      cbn [bind]. eexists _, _, _. split; [reflexivity|exact I].
    - (* SelectMany *) destruct H as (Hres & Hrel & Hq). destruct (rel_now rel Hrel) as (re & Er & Rr).
      set (froms := map (fun row => (fst row, row_of d row from)) (df_rows d)). set (qs := map (fun row => (fst row, row_of d row quantity)) (df_rows d)).
      destruct (mapr_total (fun kv : val * val => count_of (snd kv)) qs) as (ns & En & Ln).
      { intros kv Hkv. apply in_map_iff in Hkv as (row & <- & Hrow). cbn [snd]. destruct (Hq _ (Hp row Hrow)) as (n & ->). unfold count_of. rewrite as_int_vnat. cbn [bind].
        destruct (Z.ltb_spec (Z.of_nat n) 0); [lia|]. eauto. }
      set (reqs := map (fun '(kv, n) => mkReq (fst kv) (snd kv) n) (combine froms ns)).
      destruct (select_many_ok re reqs pop discard) as (rows & re' & E).
      assert (Nq : NoDup (map q_idx reqs)).
      { unfold reqs. rewrite map_map. replace (map _ (combine froms ns)) with (map fst froms); [unfold froms; rewrite map_map; exact Nd|].
        rewrite <- (map_fst_combine froms ns) at 1 by (rewrite Ln; unfold froms, qs; now rewrite !map_length). rewrite map_map. apply map_ext. now intros [kv n]. }
      destruct (select_many_rows _ _ _ _ _ _ Rr Nq E) as (Ni & _).
      destruct (join_runs JInner d (mkDf [named_as] (map (fun '(i, tos) => (i, [VList tos])) rows)) Nd) as (d' & E2).
      { unfold df_index. cbn [df_rows]. rewrite map_map. erewrite map_ext; [exact Ni|]. now intros [i ts]. }
      cbn [run_op]. unfold transformed, call_select_many, bindM, lift, deref, put_rel, modify, ret, get. rewrite !col_runs by (apply Hr; cbn; tauto). fold froms qs. rewrite En, Hres, Er. fold reqs.
      rewrite E, E2. eexists _, _, _. split; [reflexivity|exact I].
    - (* RelAdd *) destruct H as (Hi & Hrel). destruct (rel_now rel Hrel) as (re & Er & _). cbn [run_op]. unfold side_effect, if_rows. destruct (df_rows d) as [|r0 rs] eqn:Ed; [eexists _, _, _; split; [reflexivity|exact I]|].
      unfold rel_add, bindM, lift, deref, put_rel, modify. rewrite !col_runs by (apply Hi; cbn; tauto). rewrite Er, !map_map. cbn [snd].
      match goal with |- context [add_relations re ?a ?b (WScalar 1)] => destruct (add_relations_ok re a b (WScalar 1)) as (re' & E) end.
      + now rewrite !map_length.
      + cbn. now rewrite repeat_length.
      + rewrite E. eexists _, _, _. split; [reflexivity|exact I].
    - (* RelAddGrouped *) destruct H as (Hi & Hrel & Hl). destruct (rel_now rel Hrel) as (re & Er & _). cbn [run_op]. unfold side_effect, if_rows.
      destruct (df_rows d) as [|r0 rs] eqn:Ed; [eexists _, _, _; split; [reflexivity|exact I]|]. rewrite <- Ed in *.
      unfold rel_add_grouped, bindM, lift, deref, put_rel, modify. rewrite !col_runs by (apply Hi; cbn; tauto).
      destruct (mapr_total (fun kv : val * val => as_list (snd kv)) (map (fun row => (fst row, row_of d row items)) (df_rows d))) as (ls & El & _).
      { intros kv Hkv. apply in_map_iff in Hkv as (row & <- & Hrow). cbn [snd]. destruct (Hl _ (Hp row Hrow)) as (l & ->). cbn. eauto. }
      rewrite El, Er. unfold add_grouped_relations. match goal with |- context [add_grouped_aux re ?a] => destruct (add_grouped_ok a re) as (re' & E) end.
      rewrite E. eexists _, _, _. split; [reflexivity|exact I].
    - (* AttrUpdate *) destruct H as (Hcp & Hsv & Hown & Hkd). apply update_now; auto. intros [_ A]. destruct So as (a & s & Hs & Ho). specialize (A a s _ _ Hs Ho (part_self _)). cbn in A. now apply A.
    - (* AttrAdd *) destruct H as (H1 & H2 & H3 & H4 & H5). now apply add_now.
    - (* Lookup *) destruct (lookup_now pop id_field select) as (d' & l & w' & E); auto.
      + apply Hr. now left.
      + destruct B as [B|(? & ? & ? & B & _)]; [|discriminate]. cbn in B. now subst new.
      + destruct B as [B|(? & ? & ? & B & _)]; [|discriminate]. cbn in B. now subst new.
      + rewrite E. eauto 6.
    - (* PopUpdate *) destruct H as (H1 & H2 & H3). now apply pop_now.
    - (* Force *) destruct H as (H1 & H2 & H3 & H4 & H5).
      destruct (force_ids_runs d id_field condition R) as (ids & E).
      + now rewrite Hc.
      + intros c ->. split; [rewrite Hc; now apply H2|]. intros row Hrow. apply (H4 _ (Hp row Hrow)).
      + destruct (force_now story ids H3) as (w' & E2).
        { intros i Hi. unfold force_ids in E. apply bind_ok in E as (mask & _ & E). apply bind_ok in E as (ser & Es & E). injection E as <-. apply get_col_cells in Es. subst ser.
          apply in_map_iff in Hi as ([k v] & <- & Hi). apply filter_In in Hi as [Hi Hna]. cbn [snd] in *. apply in_map_iff in Hi as (row & [= <- <-] & Hrow).
          cbn [df_mask df_rows df_cols] in *. apply (sublist_In _ _ _ (sublist_mask mask (df_rows d))) in Hrow. destruct (H5 _ (Hp row Hrow)) as [K|K]; [|exact K].
          unfold row_of in K. rewrite K in Hna. discriminate. }
        cbn [run_op]. unfold side_effect, if_rows. destruct (df_rows d) as [|r0 rs]; [eexists _, _, _; split; [reflexivity|exact I]|].
        unfold bindM, lift. rewrite E, E2. eexists _, _, _. split; [reflexivity|exact I].
    - (* Reset *) cbn [run_op]. unfold side_effect. destruct id_field as [f|].
      + destruct H as (H1 & H2 & H3). destruct (reset_now story (Some (uniq (map snd (dropna (map (fun row => (fst row, row_of d row f)) (df_rows d)))))) H2) as (w' & E).
        { split; [apply uniq_NoDup|]. intros i Hi. apply (proj1 (uniq_In _ _)) in Hi. apply in_map_iff in Hi as ([k v] & <- & Hi). apply filter_In in Hi as [Hi Hna]. cbn [snd] in *.
          apply in_map_iff in Hi as (row & [= <- <-] & Hrow). destruct (H3 _ (Hp row Hrow)) as [K|K]; [|exact K]. rewrite K in Hna. discriminate. }
        unfold bindM, lift. rewrite col_runs by assumption. rewrite E. eexists _, _, _. split; [reflexivity|exact I].
      + destruct H as (H2 & H3). destruct (reset_now story (Some (df_index d)) H2) as (w' & E).
        { split; [exact Nd|]. intros i Hi. unfold df_index in Hi. apply in_map_iff in Hi as (row & <- & Hrow). apply H3. now apply Hm. }
        unfold bindM. rewrite E. eexists _, _, _. split; [reflexivity|exact I].
    - (* Transit *) destruct H as (H1 & H2 & H3 & H4 & H5 & H6).
      assert (X : exists pairs, transit_pairs d id_field state condition = Ok pairs /\ Forall (fun p => member_of w0 story (fst p) /\ state_in w0 story (snd p)) pairs).
      { unfold transit_pairs.
        assert (Y : exists mask, match condition with None => Ok d | Some c => let! bs := bool_col d c in Ok (df_mask d bs) end = Ok (mkDf (df_cols d) mask) /\ incl mask (df_rows d)).
        { destruct condition as [c|].
          - rewrite (bool_col_runs d c R); [|rewrite Hc; now apply H2|intros row Hrow; apply (H4 _ (Hp row Hrow))]. cbn [bind]. eexists. split; [reflexivity|]. intros row Hrow. eapply sublist_In; [apply sublist_mask|exact Hrow].
          - exists (df_rows d). split; [now destruct d|apply incl_refl]. }
        destruct Y as (rows & -> & Hrows). cbn [bind].
        assert (Rr : rectangular (mkDf (df_cols d) rows)). { split; [apply R|]. intros row Hrow. apply R. now apply Hrows. }
        rewrite get_col_runs; [|exact Rr|cbn; now rewrite Hc]. cbn [bind df_cols df_rows]. destruct state as [field|st].
        - destruct H6 as [Hfi H6]. rewrite get_col_runs; [|exact Rr|cbn; now rewrite Hc]. cbn [bind df_cols df_rows]. rewrite !map_map. cbn [snd]. clear Rr.
          induction rows as [|row rows IH]; cbn [map combine filter mapr]; [exists []; split; [reflexivity|constructor]|].
          destruct IH as (pairs & E & F); [intros x Hx; apply Hrows; now right|]. assert (Hrow : In row (df_rows d)) by (apply Hrows; now left).
          cbn [fst snd]. destruct (H5 _ (Hp row Hrow)) as [K|K]; unfold row_of in K.
          + rewrite K. cbn [is_na negb andb]. eauto.
          + destruct (H6 _ (Hp row Hrow)) as [K2|(st & K2 & K3)]; unfold row_of in K2; rewrite K2.
            * cbn [is_na negb]. rewrite andb_false_r. eauto.
            * destruct (is_na (cell (df_cols d) (snd row) id_field)); cbn [negb andb is_na]; [eauto|]. cbn [mapr fst snd state_of_cell bind]. rewrite E. cbn [bind].
              eexists. split; [reflexivity|]. constructor; [|exact F]. split; [exact K|exact K3].
        - eexists. split; [reflexivity|]. apply Forall_forall. intros p Hin. apply in_map_iff in Hin as ([k v] & <- & Hin). apply filter_In in Hin as [Hin Hna].
          cbn [fst snd] in *. apply in_map_iff in Hin as (row & [= <- <-] & Hrow). split; [|exact H6]. destruct (H5 _ (Hp row (Hrows _ Hrow))) as [K|K]; [|exact K]. unfold row_of in K. rewrite K in Hna. discriminate. }
      destruct X as (pairs & E & F). rewrite Forall_forall in F. destruct (transit_now story (map fst pairs) (map snd pairs) H3) with (w1 := w) as (w' & E2 & S2).
      + intros i Hi. apply in_map_iff in Hi as (p & <- & Hi). now apply F.
      + now rewrite !map_length.
      + intros i Hi. apply in_map_iff in Hi as (p & <- & Hi). now apply F.
      + reflexivity.
      + cbn [run_op]. unfold side_effect, bindM, lift. rewrite E, E2. eexists _, _, _. split; [reflexivity|exact S2].
    - (* Back *) destruct H as (H0 & H1 & H2 & H3). cbn [run_op]. unfold side_effect, back_to_default.
      destruct (story_now story H0) as (s0 & s & E0 & Es & T). destruct (Wf _ _ E0) as (_ & Dd & _ & Dp & _). pose proof T as (_ & _ & _ & _ & _ & T6 & T7 & _ & T9).
      assert (Hix : forall i, In i (df_index d) -> member_of w0 story i) by (intros i Hi; unfold df_index in Hi; apply in_map_iff in Hi as (row & <- & Hrow); apply H1; now apply Hm).
      unfold bindM at 1. unfold bindM at 1. unfold deref at 1. rewrite Es. rewrite known_In by (intros i Hi; eapply members_known; eauto). cbn [negb].
      set (nd := filter _ (df_index d)). assert (Hnd : incl nd (df_index d)) by (intros i Hi; now apply filter_In in Hi). assert (Nn' : NoDup nd) by now apply NoDup_filter.
      destruct nd as [|i0 nd0] eqn:End; [eexists _, _, _; split; [reflexivity|apply Fi]|]. rewrite <- End in *. clear End i0 nd0.
      destruct (param_total s BackProb nd) as (bp & Ebp & Kbp).
      { exact Nn'. }
      { intros i Hi. eapply members_known; [|exact Es]. apply Hix, Hnd, Hi. }
      { now rewrite T6. }
      { apply (fi_states _ _ _ Fi story s Es). }
      { intros i st q. rewrite T9, T6. unfold declared. rewrite T7. apply Dp. }
      unfold bindM at 1. unfold lift at 1. rewrite Ebp.
      assert (X : exists cond w1, (if forallb (fun p : val * Q => Qeq_bool (snd p) 0) bp then ret (map (fun _ => false) bp)
          else if forallb (fun p : val * Q => Qeq_bool (snd p) 1) bp then ret (map (fun _ => true) bp)
          else let* baseline := generate judge (Z.of_nat (length bp)) in let* us := lift (mapr as_Q baseline) in
               ret (map (fun '(p, u) => Qltb u (snd p)) (combine bp us))) w = (Ok cond, w1) /\ w_stories w1 = w_stories w).
      { destruct (forallb _ bp); [eexists _, _; split; reflexivity|]. destruct (forallb _ bp); [eexists _, _; split; reflexivity|].
        destruct (gen_gives (w_gens w0) (w_gens w) judge (Z.of_nat (length bp)) H2 (sc_gens _ _ (fi_since _ _ _ Fi)) (Nat2Z.is_nonneg _)) as (vs & h' & E & _ & _ & Fv).
        destruct (mapr_total as_Q vs) as (us & Eu & _).
        { intros v Hv. rewrite Forall_forall in Fv. destruct (H3 v (Fv v Hv)) as (q & ->). cbn. eauto. }
        unfold generate, bindM, get, lift, modify, ret. rewrite E. rewrite Eu. eexists _, _. split; reflexivity. }
      destruct X as (cond & w1 & Ec & Ew). unfold bindM at 1. rewrite Ec.
      destruct (transit_now story (map fst (mask_rows cond bp)) (map (fun _ => "default"%string) (map fst (mask_rows cond bp))) H0) with (w1 := w1) as (w2 & E2 & S2).
      + intros i Hi. apply Hix, Hnd. rewrite <- Kbp. apply in_map_iff in Hi as (p & <- & Hi). apply in_map. eapply sublist_In; [apply sublist_mask|exact Hi].
      + now rewrite !map_length.
      + intros st Hst. apply in_map_iff in Hst as (i & <- & _). exists s0. auto.
      + exact Ew.
      + rewrite E2. eexists _, _, _. split; [reflexivity|exact S2].
  Qed.
  End World.
End Runs.
