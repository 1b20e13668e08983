(** How stories are set up. *)
From Verif Require Import Base BaseFacts Rng RngFacts Utils UtilsFacts Relationship RelationshipFacts Frame Gens GensProps
  Clock SpecClock ClockProps Attribute AttributeFacts World Story Ops OpsFacts Fs Circus SpecStory StoryFacts StoryExec
  StoryProps SpecOps OpsProps OpsColumns StoryMore StoryStates StoryBack StoryDelay StoryNew SpecWorld SpecSetup.
From Coq Require Import Permutation.

Lemma drawn_app size a l b l' c : drawn size a l b -> drawn size b l' c -> drawn size a (l ++ l') c.
Proof. induction 1; intros H'; cbn; [exact H'|]. econstructor; eauto. Qed.

Lemma generate_gives g n w vs w' : generate g n w = (Ok vs, w') -> exists gens, gen_generate (w_gens w) g n = Ok (vs, gens) /\ w' = set_gens gens w.
Proof.
  unfold generate, bindM, get, lift, modify, ret. destruct (gen_generate (w_gens w) g n) as [[x gens']|e]; [|discriminate]. intros [= -> <-]. eauto.
Qed.

(** The values of one state. *)
Definition one_state (size : Z) (gens : list gen) (g : state_gens) (ps : list (Q * Q)) (gens' : list gen) : Prop :=
  exists acts probs mid, gives gens (fst g) size acts mid /\ gives mid (snd g) size probs gens' /\ ps = combine acts probs /\ length acts = length ps /\ length probs = length ps.

Lemma state_params_gives ids size g w ps w' : state_params ids size g w = (Ok ps, w') ->
  length ps = length ids /\ exists gens, w' = set_gens gens w /\ one_state size (w_gens w) g ps gens.
Proof.
  intros H. unfold state_params in H. mstep H. apply generate_gives in E as (g1 & G1 & ->). mstep H.
  apply generate_gives in E as (g2 & G2 & ->). cbn [w_gens set_gens] in G2.
  destruct (length x =? length ids) eqn:L1; [|discriminate]. destruct (length x0 =? length ids) eqn:L2; [|discriminate].
  cbn [negb orb] in H. apply Nat.eqb_eq in L1, L2. mstep H. mstep H. apply lift_ok in E as [E ->]. apply lift_ok in E0 as [E0 ->].
  injection H as <- <-. apply mapr_ok_Forall2 in E. apply mapr_ok_Forall2 in E0.
  assert (length x1 = length x) by (clear - E; induction E; cbn; auto). assert (length x2 = length x0) by (clear - E0; induction E0; cbn; auto).
  split; [rewrite combine_length; lia|]. exists g2. split; [reflexivity|]. exists x1, x2, g1. rewrite combine_length. repeat split; try lia; [exists x|exists x0]; split; auto.
Qed.

Lemma all_params_gives ids size states w cols w' : all_params ids size states w = (Ok cols, w') ->
  map fst cols = map fst states /\ Forall (fun c => length (snd c) = length ids) cols /\
  (exists gens, w' = set_gens gens w /\ drawn size (w_gens w) (gens_of states) gens) /\
  forall st g, In (st, g) states -> exists ps l1 l2 gens1 gens2, In (st, ps) cols /\ states = l1 ++ (st, g) :: l2 /\
    drawn size (w_gens w) (gens_of l1) gens1 /\ one_state size gens1 g ps gens2 /\ drawn size gens2 (gens_of l2) (w_gens w').
Proof.
  revert w cols w'. induction states as [|[n g] states IH]; intros w cols w' H; cbn [all_params] in H.
  - injection H as <- <-. split; [reflexivity|]. split; [constructor|]. split; [exists (w_gens w); split; [now rewrite set_gens_same|constructor]|]. intros st g [].
  - mstep H. apply state_params_gives in E as (L & g1 & -> & O). mstep H. apply IH in E as (K & F & (g2 & -> & D) & R). cbn [w_gens set_gens] in D.
    injection H as <- <-. cbn [map fst]. split; [now f_equal|]. split; [constructor; auto|].
    assert (P : drawn size (w_gens w) [fst g; snd g] g1).
    { destruct O as (acts & probs & mid & (vs & G1 & _) & (vs' & G2 & _) & _). econstructor; [exact G1|]. econstructor; [exact G2|constructor]. }
    split. { exists g2. split; [reflexivity|]. change (gens_of ((n, g) :: states)) with ([fst g; snd g] ++ gens_of states). eapply drawn_app; eauto. }
    intros st g0 [[= <- <-]|Hin].
    + exists x, [], states, (w_gens w), g1. split; [now left|]. split; [reflexivity|]. split; [constructor|]. split; [exact O|exact D].
    + destruct (R st g0 Hin) as (ps & l1 & l2 & ga & gb & H1 & H2 & H3 & H4 & H5). exists ps, ((n, g) :: l1), l2, ga, gb.
      split; [now right|]. split; [now rewrite H2|]. split; [|split; [exact H4|exact H5]]. change (gens_of ((n, g) :: l1)) with ([fst g; snd g] ++ gens_of l1). eapply drawn_app; eauto.
Qed.

Lemma In_cols {A B} `{EqK A} (cols : list (A * B)) st x y : NoDup (map fst cols) -> In (st, x) cols -> In (st, y) cols -> x = y.
Proof.
  intros N Hx Hy. apply (In_dget _ _ _ N) in Hx. apply (In_dget _ _ _ N) in Hy. congruence.
Qed.

(** the merged dictionary *)
Lemma merged_states (order : list string -> list string) default (states : option (dict string state_gens)) w merged w' :
  (forall l, Permutation (order l) l) -> match states with Some d => NoDup (dkeys d) | None => True end ->
  (match states with
   | None => ret [("default"%string, default)]
   | Some d => let dd := [("default"%string, default)] in lift (merge_2_dicts_ord (order (union_keys dd d)) None dd d)
   end : M (dict string state_gens)) w = (Ok merged, w') ->
  w' = w /\ NoDup (map fst merged) /\ Permutation merged (all_states default states).
Proof.
  intros Ho Nd H. destruct states as [d|].
  - cbv zeta in H. apply lift_ok in H as [H ->]. split; [reflexivity|]. pose proof (merge_ord_keys _ _ _ _ _ H) as K.
    assert (N1 : NoDup (union_keys [("default"%string, default)] d)) by (apply union_keys_NoDup; [repeat constructor; intros []|exact Nd]).
    assert (Nm : NoDup (map fst merged)).
    { change (map fst merged) with (dkeys merged). rewrite K. eapply Permutation_NoDup; [symmetry; apply Ho|exact N1]. }
    split; [exact Nm|].
    assert (G : forall k v, In (k, v) merged -> (forall v', dget k [("default"%string, default)] = Some v' -> dget k d = None /\ v = v') /\ (dget k [("default"%string, default)] = None -> dget k d = Some v)).
    { intros k v Hin. assert (Hk : In k (order (union_keys [("default"%string, default)] d))) by (rewrite <- K; exact (in_map fst _ _ Hin)).
      destruct (merge_ord_get _ _ _ _ _ _ H Hk) as (v' & M1 & M2). apply (In_dget _ _ _ Nm) in Hin. assert (v' = v) by congruence. subst v'.
      unfold merged_value in M1. destruct (dget k [("default"%string, default)]) as [v1|], (dget k d) as [v2|]; try discriminate.
      - split; [|discriminate]. intros v' [= <-]. split; [reflexivity|congruence].
      - split; [discriminate|]. intros _. congruence. }
    assert (Nk : NoDup (map fst (all_states default (Some d)))).
    { cbn [all_states map fst]. constructor; [|exact Nd]. intros Hd.
      assert (Hk : In "default"%string (order (union_keys [("default"%string, default)] d))) by (eapply Permutation_in; [symmetry; apply Ho|]; apply union_keys_In; left; now left).
      destruct (merge_ord_get _ _ _ _ _ _ H Hk) as (v' & M1 & _). unfold merged_value in M1. cbn in M1. destruct (dget "default"%string d) eqn:E; [discriminate|]. apply dget_None in E. contradiction. }
    apply NoDup_Permutation; [eapply NoDup_map_inv; exact Nm|eapply NoDup_map_inv; exact Nk|]. intros [k v]. split.
    + intros Hin. destruct (G k v Hin) as [G1 G2]. cbn in G1, G2. cbn [all_states In]. destruct (keqb_spec k "default"%string) as [E|E].
      * left. subst k. destruct (G1 _ eq_refl) as [_ ->]. reflexivity.
      * right. apply dget_In. now apply G2.
    + intros Hin.
      assert (Hk : In k (order (union_keys [("default"%string, default)] d))).
      { eapply Permutation_in; [symmetry; apply Ho|]. apply union_keys_In. destruct Hin as [[= <- _]|Hin]; [left; now left|right; exact (in_map fst _ _ Hin)]. }
      destruct (merge_ord_get _ _ _ _ _ _ H Hk) as (v' & M1 & M2). apply dget_In in M2. replace v with v'; [exact M2|].
      unfold merged_value in M1. destruct Hin as [[= <- <-]|Hin].
      * change (dget "default"%string [("default"%string, default)]) with (Some default) in M1. destruct (dget "default"%string d); [discriminate|]. now injection M1 as ->.
      * pose proof (In_dget _ _ _ Nd Hin) as E. rewrite E in M1. destruct (dget k [("default"%string, default)]); [discriminate|]. injection M1 as ->. reflexivity.
  - injection H as <- <-. split; [reflexivity|]. split; [repeat constructor; intros []|reflexivity].
Qed.

Lemma gens_of_perm l l' : Permutation l l' -> Permutation (gens_of l) (gens_of l').
Proof. intros P. unfold gens_of. now apply Permutation_flat_map. Qed.

Lemma params_given ids cols st ps acts probs s : NoDup ids -> NoDup (map fst cols) -> Forall (fun c => length (snd c) = length ids) cols -> st_params s = params_table ids cols ->
  In (st, ps) cols -> ps = combine acts probs -> length acts = length ps -> length probs = length ps ->
  forall k i, nth_error ids k = Some i -> forall q,
    (activity_in s i st q <-> nth_error acts k = Some q) /\ (back_probability_in s i st q <-> nth_error probs k = Some q).
Proof.
  intros Ni Nc F Es Hin -> La Lp k i Hk q. destruct (params_table_nth ids cols k i Hk F) as (states & E & Hs).
  assert (U : forall states', In (i, states') (st_params s) <-> states' = states).
  { intros states'. rewrite Es. apply nth_error_In in E. assert (Nk : NoDup (map fst (params_table ids cols))) by (change (NoDup (dkeys (params_table ids cols))); now rewrite params_table_keys).
    split; [intros H; exact (In_cols _ _ _ _ Nk H E)|now intros ->]. }
  assert (C : forall ab, In (st, ab) states <-> nth_error (combine acts probs) k = Some ab).
  { intros ab. rewrite Hs. split; [intros (vals & H1 & H2); now rewrite (In_cols _ _ _ _ Nc Hin H1)|eauto]. }
  assert (N : forall ab, nth_error (combine acts probs) k = Some ab <-> nth_error acts k = Some (fst ab) /\ nth_error probs k = Some (snd ab)).
  { clear. intros [a b]. revert probs k. induction acts as [|x acts IH]; intros [|y probs] [|k]; cbn; try (split; [discriminate|intros [? ?]; discriminate]).
    - split; [intros [= -> ->]; auto|intros [[= ->] [= ->]]; auto].
    - apply IH. }
  assert (Hl : k < length ids) by (apply nth_error_Some; congruence). rewrite Forall_forall in F. pose proof (F _ Hin) as L. cbn [snd] in L. 
  assert (Xa : exists x, nth_error acts k = Some x) by (destruct (nth_error acts k) eqn:X; [eauto|apply nth_error_None in X; lia]).
  assert (Xp : exists x, nth_error probs k = Some x) by (destruct (nth_error probs k) eqn:X; [eauto|apply nth_error_None in X; lia]).
  destruct Xa as [xa Xa], Xp as [xp Xp]. split; split.
  - intros (st' & ab & H1 & H2 & ->). apply U in H1. subst st'. apply C in H2. now apply N in H2.
  - intros Hq. exists states, (q, xp). split; [now apply U|]. split; [|reflexivity]. apply C, N. auto.
  - intros (st' & ab & H1 & H2 & ->). apply U in H1. subst st'. apply C in H2. now apply N in H2.
  - intros Hq. exists states, (xa, q). split; [now apply U|]. split; [|reflexivity]. apply C, N. auto.
Qed.

Lemma created_params order name p f default states t auto w a w' po :
  create_story order name p f default states t auto w = (Ok a, w') -> (forall l, Permutation (order l) l) ->
  match states with Some d => NoDup (dkeys d) | None => True end -> nth_error (w_pops w) p = Some po -> NoDup (p_ids po) ->
  forall st ga gp, In (st, (ga, gp)) (all_states default states) ->
  exists s before acts probs later gens1 gens2 gens3, nth_error (w_stories w') a = Some s /\
    Permutation (before ++ ga :: gp :: later) (gens_of (all_states default states)) /\
    drawn (p_size po) (w_gens w) before gens1 /\ gives gens1 ga (p_size po) acts gens2 /\ gives gens2 gp (p_size po) probs gens3 /\ drawn (p_size po) gens3 later (w_gens w') /\
    length acts = length (p_ids po) /\ length probs = length (p_ids po) /\
    forall k i, nth_error (p_ids po) k = Some i -> forall q, (activity_in s i st q <-> nth_error acts k = Some q) /\ (back_probability_in s i st q <-> nth_error probs k = Some q).
Proof.
  intros H Ho Nd Hp Ni st ga gp Hin. destruct (create_story_ok _ _ _ _ _ _ _ _ _ _ _ H Ho) as (s & w1 & Hn & Hs & Hw & -> & ->).
  unfold new_story in Hs. mstep Hs. apply deref_ok in E as [Hp' ->]. assert (x = po) by congruence. subst x. mstep Hs. rename x into merged.
  apply (merged_states order default states w merged w0 Ho Nd) in E as (-> & Nm & P). mstep Hs. rename x into cols. apply all_params_gives in E as (K & F & (gens & -> & D) & R).
  set (sb := mkStory name p f t auto [] (map fst merged) (params_table (p_ids po) cols) _ []) in Hs.
  assert (X : st_params s = params_table (p_ids po) cols /\ w_gens w1 = gens).
  { destruct auto; [|injection Hs as <- <-; auto]. mstep Hs. apply deref_ok in E as [Hg ->]. mstep Hs. apply lift_ok in E as [Er ->]. destruct x0 as [s' g1].
    mstep Hs. injection E as _ <-. injection Hs as <- <-. destruct (reset_spec _ _ _ _ _ Er) as ((_&_&_&_&_&_&S7&_) & _). rewrite S7. auto. }
  destruct X as [Xs Xw].
  destruct (R st (ga, gp)) as (ps & l1 & l2 & gens1 & gens3 & C1 & C2 & C3 & C4 & C5). { eapply Permutation_in; [symmetry; exact P|exact Hin]. }
  destruct C4 as (acts & probs & gens2 & G1 & G2 & Eps & La & Lp). cbn [fst snd] in G1, G2. cbn [w_gens set_gens] in C5.
  exists s, (gens_of l1), acts, probs, (gens_of l2), gens1, gens2, gens3.
  assert (Lps : length ps = length (p_ids po)) by (rewrite Forall_forall in F; exact (F _ C1)).
  split; [cbn [w_stories set_stories]; rewrite nth_error_app2, Nat.sub_diag by lia; reflexivity|].
  split; [rewrite <- (gens_of_perm _ _ P), C2; unfold gens_of; rewrite flat_map_app; reflexivity|].
  split; [exact C3|]. split; [exact G1|]. split; [exact G2|]. split; [cbn [w_gens set_stories]; rewrite Xw; exact C5|]. split; [lia|]. split; [lia|].
  apply (params_given (p_ids po) cols st ps acts probs s); auto. rewrite K. exact Nm.
Qed.

(** Names *)
Lemma find_story_first name stories : forall k a, find_story name stories k = Some a ->
  exists s, k <= a /\ nth_error stories (a - k) = Some s /\ st_name s = name.
Proof.
  induction stories as [|s l IH]; intros k a; cbn; [discriminate|]. destruct (keqb_spec (st_name s) name) as [E|N].
  - intros [= <-]. exists s. rewrite Nat.sub_diag. auto.
  - intros H. destruct (IH _ _ H) as (s' & L & H1 & H2). exists s'. split; [lia|]. split; [|exact H2]. replace (a - k) with (S (a - S k)) by lia. exact H1.
Qed.

Lemma story_found w a s : NoDup (map st_name (w_stories w)) -> nth_error (w_stories w) a = Some s -> find_story (st_name s) (w_stories w) 0 = Some a.
Proof.
  intros N H. destruct (find_story (st_name s) (w_stories w) 0) as [b|] eqn:E.
  - destruct (find_story_first _ _ _ _ E) as (s' & _ & H1 & H2). rewrite Nat.sub_0_r in H1. f_equal.
    apply (proj1 (NoDup_nth_error (map st_name (w_stories w))) N).
    + rewrite map_length. apply nth_error_Some. congruence.
    + rewrite !nth_error_map, H, H1. cbn. congruence.
  - apply find_story_In in E. exfalso. apply E. apply in_map. now apply nth_error_In in H.
Qed.
