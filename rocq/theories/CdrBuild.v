(** What the construction of the CDR scenario does after its subscribers, SIMs and geography. *)
From Verif Require Import Base BaseFacts Rng RngFacts Utils UtilsFacts Relationship RelationshipFacts SpecRelationship RelationshipMany RelationshipProps
  Frame Gens GensProps Clock SpecClock ClockProps Attribute AttributeFacts World Story Ops OpsFacts Circus SpecStory StoryFacts StoryNew SpecOps SpecWorld SpecPopulation GensKept PopFacts PopMore SpecSetup SetupProps
  SpecSafe SafeOps Geography SpecGeography GeographyRun GeographyBuild SpecComponents Components ComponentsFacts Cdr CdrSetup CdrSubs SpecPrompt PromptProps CdrStories.
From Coq Require Import Permutation Lqa.
Local Open Scope nat_scope.

(** [m] succeeds if [G] holds, and whenever it succeeds it ends as [Q] says. *)
Definition may {A} (G : Prop) (m : M A) (w : world) (Q : A -> world -> Prop) : Prop :=
  (exists a w', m w = (Ok a, w') /\ Q a w') \/ (~ G /\ exists e w', m w = (Err e, w')).
Lemma may_bind {A B} G (m : M A) (f : A -> M B) w Q1 Q2 : may G m w Q1 -> (forall a w', Q1 a w' -> may G (f a) w' Q2) -> may G (bindM m f) w Q2.
Proof.
  intros [(a & w1 & E & H)|(N & e & w1 & E)] Hf.
  - destruct (Hf _ _ H) as [(b & w2 & E2 & K)|(N & e & w2 & E2)]; [left; exists b, w2|right; split; [exact N|]; exists e, w2]; unfold bindM; rewrite E; auto.
  - right. split; [exact N|]. exists e, w1. unfold bindM. now rewrite E.
Qed.
Lemma may_step {A B} G (m : M A) (f : A -> M B) w a w' Q : m w = (Ok a, w') -> may G (f a) w' Q -> may G (bindM m f) w Q.
Proof. intros H D. unfold may, bindM in *. now rewrite H. Qed.
Lemma may_eq {A} G (m : M A) w (Q : A -> world -> Prop) a w' : m w = (Ok a, w') -> Q a w' -> may G m w Q.
Proof. intros H K. left. eauto. Qed.
Lemma may_does {A} (G : Prop) (m : M A) w P Q : does m w P Q -> (G -> P) -> may G m w Q.
Proof. intros [(H & a & w' & E & K)|(N & e & w' & E)] HP; [left; eauto|right]. split; [tauto|]. eauto. Qed.
Lemma may_lift {A} (G : Prop) (res : result A) w : (G -> exists a, res = Ok a) -> may G (lift res) w (fun a w' => res = Ok a /\ w' = w).
Proof. intros H. eapply may_does; [apply does_lift|exact H]. Qed.
Lemma may_weaken {A} G (m : M A) w (Q Q' : A -> world -> Prop) : may G m w Q -> (forall a w', Q a w' -> Q' a w') -> may G m w Q'.
Proof. intros [(a & w' & E & K)|N] H; [left; exists a, w'; auto|right; exact N]. Qed.

(** The generator number [i] follows the law of [x]. *)
Definition law (h : list gen) (i : nat) (x : gen) : Prop := exists x', nth_error h i = Some x' /\ same_gen x x'.
Lemma law_nth h i x : nth_error h i = Some x -> law h i x.
Proof. intros H. exists x. split; [exact H|apply same_gen_refl]. Qed.
Lemma law_kept h h' i x : gens_kept h h' -> law h i x -> law h' i x.
Proof. intros K (y & E & S). destruct (K _ _ E) as (z & E' & S'). exists z. split; [exact E'|]. eapply same_gen_trans; eauto. Qed.
Lemma law_new h x : law (h ++ [x]) (length h) x. Proof. apply law_nth. apply nth_mid. Qed.
Lemma law_numeric h i x : number_law x -> law h i x -> numeric_gen h i.
Proof. intros N (y & E & S). exists y. split; [exact E|]. eapply number_law_same; eauto. Qed.

(** Relations between two groups, with positive weights. *)
Definition between (rel : relationship) (froms tos : list val) : Prop :=
  reachable rel /\ forall f t q, In (f, t, q) (stored rel) -> In f froms /\ In t tos /\ (0 < q)%Q.
Lemma lines3_pos froms : forall tos ws f t q, In (f, t, q) (lines3 froms tos ws) -> In (f, t) (combine froms tos) /\ In q ws.
Proof. induction froms as [|a froms IH]; intros [|b tos] [|c ws] f t q H; try destruct H as [H|H]; try contradiction; [injection H as -> -> ->; cbn; auto|]. apply IH in H. cbn. tauto. Qed.
Lemma lines3_all froms : forall tos ws, length tos = length froms -> length ws = length froms -> map (fun x => fst (fst x)) (lines3 froms tos ws) = froms.
Proof. induction froms as [|a froms IH]; intros [|b tos] [|c ws] H1 H2; try discriminate; [reflexivity|]. cbn. now rewrite IH by (cbn in *; lia). Qed.

Lemma numbers_from (f : N -> Qc) ws : Forall (fun v => exists n, v = VNum (f n)) ws -> forall rs, numbers ws = Ok rs -> Forall (fun q => exists n, q = this (f n)) rs.
Proof.
  induction 1 as [|v ws (n & ->) H IH]; intros rs E; unfold numbers in *; cbn [mapr as_Q bind] in E; [injection E as <-; constructor|].
  apply bind_ok in E as (rs' & E & K). injection K as <-. constructor; [eauto|]. now apply IH.
Qed.
Lemma new_between pg s (df : list (val * val)) (f : N -> Qc) ws rs rel froms tos : (forall n, 0 < f n)%Qc -> Forall (fun v => exists n, v = VNum (f n)) ws -> numbers ws = Ok rs ->
  Forall (fun e => In (fst e) froms /\ In (snd e) tos) df -> length rs = length df ->
  add_relations (new_relationship pg s) (map fst df) (map snd df) (WArray rs) = Ok rel ->
  between rel froms tos /\ forall k, In k (dkeys (grouped rel)) -> exists t, related rel k t.
Proof.
  intros Hf Hw Hr Hd Hl E. assert (R : reachable rel) by (eapply reach_add; [apply reach_new|exact E]).
  pose proof (add_exact _ _ _ _ _ (reach_new _ _) E) as P. rewrite new_rel_stored in P. cbn [app weights_list] in P.
  split.
  - split; [exact R|]. intros a b q H. apply (Permutation_in _ P) in H. apply lines3_pos in H as [H1 H2]. rewrite combine_split1 in H1. rewrite Forall_forall in Hd. pose proof (Hd _ H1) as [D1 D2].
    split; [exact D1|]. split; [exact D2|]. pose proof (numbers_from f ws Hw rs Hr) as F. rewrite Forall_forall in F. destruct (F _ H2) as (n & ->). apply Hf.
  - intros k Hk. unfold add_relations in E. apply bind_ok in E as (d & Ed & E). apply bind_ok in E as (g & Eg & E). injection E as <-. cbn [grouped with_grouped] in Hk, P |- *.
    pose proof (merge_ord_keys _ _ _ _ _ Eg) as K. rewrite K in Hk. apply union_keys_In in Hk as [Hk|Hk]; [destruct Hk|].
    apply from_tuples_spec in Ed as (_ & Ek & _). apply Ek in Hk. rewrite <- lines3_lines in Hk. cbn [weights_list] in Hk.
    apply in_map_iff in Hk as ([[f0 t] q] & <- & Hq). exists t, q. apply (Permutation_in _ (Permutation_sym P)). exact Hq.
Qed.

Lemma bipartite_covers {A B} (g1 : list A) (g2 : list B) p edges res e f : make_random_bipartite_data g1 g2 p edges = Ok res -> g1 <> [] -> g2 <> [] -> ~ (p == 0)%Q ->
  In e edges -> nth_error g1 (fst e) = Some f -> exists t, In (f, t) res.
Proof.
  intros H H1 H2 Hp He Hf. unfold make_random_bipartite_data in H.
  destruct (Nat.eqb_spec (length g1) 0) as [E|_]; [now destruct g1|]. destruct (Nat.eqb_spec (length g2) 0) as [E|_]; [now destruct g2|].
  destruct (Qeq_bool p 0) eqn:E; [now apply Qeq_bool_iff in E|]. cbn [orb] in H. destruct edges as [|e0 edges]; [easy|].
  rewrite mapr_ok_Forall2 in H. induction H as [|e1 ab es res He1 _ IH]; [easy|]. destruct He as [->|He].
  - rewrite Hf in He1. destruct (nth_error g2 _) as [t|]; [|easy]. injection He1 as <-. exists t. now left.
  - destruct (IH He) as (t & Ht). exists t. now right.
Qed.

Lemma get_relationship_eq p name w po r : nth_error (w_pops w) p = Some po -> dget name (p_rels po) = Some r -> get_relationship p name w = (Ok r, w).
Proof. intros H E. unfold get_relationship, bindM, deref, lift. now rewrite H, E. Qed.
(** An attribute chosen among relations. *)
Lemma chosen_attr name relname w po rest r rel : w_pops w = po :: rest -> p_size po <> 0%Z -> dget relname (p_rels po) = Some r -> nth_error (w_rels w) r = Some rel ->
  reachable rel -> (forall k, In k (dkeys (grouped rel)) -> exists t, related rel k t) -> (forall f t q, In (f, t, q) (stored rel) -> (0 < q)%Q) ->
  exists tab rel', create_attribute 0 name None None (Some relname) w =
     (Ok (length (w_attrs w)), set_pops (mkPop (p_ids po) (p_size po) (dset name (length (w_attrs w)) (p_attrs po)) (p_rels po) :: rest)
        (set_attrs (w_attrs w ++ [tab]) (set_rels (set_nth r rel' (w_rels w)) w))) /\
    reachable rel' /\ stored rel' = stored rel /\ NoDup (map fst tab) /\ (forall k v, In (k, v) tab -> related rel k v) /\ (forall k v, related rel k v -> In k (map fst tab)).
Proof.
  intros Hp Hn Hr Hrel R Hk Hpos.
  destruct (select_one_total rel None false false false R) as (rows & rel' & E).
  - intros f t q H. apply Qlt_le_weak. eauto.
  - intros f H. destruct (tos_stored rel f) as [|t l] eqn:Et; [cbn in H; lia|]. assert (K : In t (tos_stored rel f)) by (rewrite Et; now left).
    unfold tos_stored in K. apply in_map_iff in K as ([[f' t'] q] & <- & K). apply filter_In in K as [K F]. cbn in F. destruct (keqb_spec f' f) as [->|]; [|discriminate]. cbn. eauto.
  - exists (map (fun '(_, from, to) => (from, to)) rows), rel'.
    destruct (select_all_froms _ _ _ R E) as (S1 & S2 & S3).
    assert (Mf : map fst (map (fun '(_, from, to) => (from, to)) rows) = map (fun '(_, f, _) => f) rows) by (rewrite map_map; apply map_ext; now intros [[a b] c]).
    assert (Kk : forall f, In f (map (fun '(_, f, _) => f) rows) -> In f (dkeys (grouped rel))).
    { destruct (select_one_spec _ _ _ _ _ _ _ _ (reachable_wf _ R) E) as (picks & out & HF & Hoff & _ & -> & _ & _). rewrite (Hoff eq_refl). clear -HF.
      intros f H. apply in_map_iff in H as ([[i f'] t] & <- & H). apply in_map_iff in H as (s & [= <- <- <-] & H).
      assert (X : exists rq, In rq (answered rel false None) /\ s_from s = snd rq).
      { induction HF as [|rq s0 l l' (_ & E & _) _ IH]; [destruct H|]. destruct H as [->|H]; [exists rq; split; [now left|exact E]|]. destruct (IH H) as (rq' & A & B). exists rq'. split; [now right|exact B]. }
      destruct X as ([i0 f0] & A & ->). unfold answered, requests in A. apply filter_In in A as [A _]. apply in_combine_r in A. exact A. }
    split; [|split; [eapply reach_select_one; eauto|split; [eapply select_one_keeps; exact E|split; [rewrite Mf; exact S1|split]]]].
    + assert (Et : attr_table 0 None None (Some relname) w = (Ok (map (fun '(_, from, to) => (from, to)) rows), set_rels (set_nth r rel' (w_rels w)) w)).
      { unfold attr_table. rewrite (bind_eq (deref w_pops 0) _ w po w) by (apply deref_eq; now rewrite Hp). rewrite (proj2 (Z.eqb_neq _ _) Hn).
        rewrite (bind_eq (get_relationship 0 relname) _ w r w) by (eapply get_relationship_eq; [now rewrite Hp|exact Hr]).
        rewrite (bind_eq (deref w_rels r) _ w rel w) by (apply deref_eq; exact Hrel). unfold lift. rewrite E. reflexivity. }
      unfold create_attribute. rewrite (bind_eq _ _ _ _ _ Et). rewrite (bind_eq (deref w_pops 0) _ _ po (set_rels (set_nth r rel' (w_rels w)) w)) by (apply deref_eq; worlds; now rewrite Hp).
      unfold bindM, get, modify, put_pop, ret. worlds. rewrite Hp. reflexivity.
    + intros k v H. apply in_map_iff in H as ([[i f] t] & [= -> ->] & H). destruct (S2 _ _ _ H) as [X|(X & _)]; [exact X|].
      exfalso. destruct (Hk k) as (t & Ht); [|exact (X t Ht)]. apply Kk. apply in_map_iff. now exists (i, k, v).
    + intros k v H. rewrite Mf. destruct (S3 _ _ H) as (i & t' & H'). apply in_map_iff. now exists (i, k, t').
Qed.

(** A new story, without operations. *)
Definition made (s : story) (name field : string) (ids : list val) (t : nat) : Prop :=
  st_name s = name /\ st_field s = field /\ st_ids s = ids /\ st_tgen s = t /\ planned s.

Lemma mobility_may (G : Prop) x pg sd ck attrs rels gens dgens tgens sp s2 cp rest stories names gnames :
  p_size sp = Z.of_nat (length (p_ids sp)) -> NoDup (p_ids sp) -> p_ids sp <> [] -> p_rels sp = [("SIMS"%string, 0)] ->
  (forall n, 0 < exponential x n)%Qc -> (forall l, Permutation (states_order x l) l) ->
  ~ In "mobility"%string (map st_name stories) ->
  (G -> can_start mobility_profile ck) ->
  (G -> forall seed, exists df, make_random_bipartite_data (p_ids sp) (p_ids cp) (4#10) (nx_bipartite x seed (length (p_ids sp)) (length (p_ids cp)) (4#10)) = Ok df) ->
  may G (add_mobility x 0 2) (mkWorld pg sd ck attrs rels gens dgens tgens (sp :: s2 :: cp :: rest) stories names gnames)
   (fun _ w' => exists sd' tab rel gens' tgens' s bk,
      w' = mkWorld pg sd' (register_listener ck (length tgens)) (attrs ++ [tab]) (rels ++ [rel]) gens' dgens tgens'
            (mkPop (p_ids sp) (p_size sp) (dset "CELL"%string (length attrs) (p_attrs sp)) [("SIMS"%string, 0); ("POSSIBLE_CELLS"%string, length rels)] :: s2 :: cp :: rest)
            (stories ++ [with_ops s (cdr_mobility (mkCdr 0 0 0 0 0 (length rels) 0 (length attrs) 0 0 0 0 0 0 0 0 0 0 0 0 0 0 (fun l => l) (time_format (of_geography x))) ++ [OpBack (length stories) bk])]) names gnames /\
      length tgens' = S (length tgens) /\ gens_kept gens gens' /\ law gens' bk (GNumpy NpUniform (random_state pg 1234) None) /\
      made s "mobility" "A_ID" (p_ids sp) (length tgens) /\ between rel (p_ids sp) (p_ids cp) /\
      NoDup (map fst tab) /\ (forall k v, In (k, v) tab -> related rel k v) /\ (forall k v, related rel k v -> In k (map fst tab)) /\
      exists seed, (forall i, i < length (p_ids sp) -> In i (map fst (nx_bipartite x seed (length (p_ids sp)) (length (p_ids cp)) (4#10)))) -> p_ids cp <> [] ->
        forall f, In f (p_ids sp) -> exists t, related rel f t).
Proof.
  intros Hsz Nd Hne Hrels Hpos Hord Hname Hstart Hgraph.
  match goal with |- may _ _ _ ?X => set (Q := X) end.
  unfold add_mobility. eapply may_step; [reflexivity|]. worlds.
  eapply may_bind; [eapply may_does; [apply alloc_cyclic_does|exact Hstart]|]. worlds. intros t w1 (sd1 & st & y & -> & _ & ->). worlds.
  match goal with |- may _ _ ?W _ => destruct (runs_seed W) as (q1 & sd2 & Eq1) end. eapply may_step; [exact Eq1|]. clear Eq1. worlds.
  eapply may_step; [apply alloc_gen_eq|]. worlds.
  match goal with |- may _ _ ?W _ => edestruct (relationship_eq "POSSIBLE_CELLS" [] sp _ W eq_refl) as (rs2 & rsd2 & Er2) end.
  eapply may_step; [exact Er2|]. clear Er2. worlds. cbn [app].
  match goal with |- may _ _ ?W _ => destruct (runs_seed W) as (q2 & sd3 & Eq2) end. eapply may_step; [exact Eq2|]. clear Eq2. worlds.
  eapply may_step; [apply deref_eq; reflexivity|]. eapply may_step; [apply deref_eq; reflexivity|]. cbn [p_ids].
  eapply may_bind; [apply may_lift; intros HG; apply (Hgraph HG)|]. intros df w1 (Egr & ->).
  destruct (other_step (exponential x) (random_state pg q1) (Z.of_nat (length df))) as (ws & hst & Hh1 & Hh2 & Hh3); [lia|].
  eapply may_step; [eapply (leaf_generate _ gens _ []); [reflexivity|exact Hh3]|]. worlds.
  destruct (numbers_ok ws) as (rs & Ers & Lrs). { eapply Forall_impl; [|exact Hh2]. cbn. intros v (n & ->). eauto. }
  destruct (add_relations_ok (new_relationship pg rs2) (map fst df) (map snd df) (WArray rs)) as (rel & Erel);
    [rewrite !map_length; lia|cbn [weights_list]; rewrite map_length; lia|].
  destruct (new_between pg rs2 df (exponential x) ws rs rel (p_ids sp) (p_ids cp) Hpos Hh2 Ers (bipartite_spec _ _ _ _ _ Egr) ltac:(lia) Erel) as [Bt Bk].
  eapply may_step.
  { unfold rel_add_weighted, bindM, deref, lift, put_rel, modify. worlds. rewrite nth_mid, Ers, Erel. worlds. rewrite set_mid. reflexivity. }
  worlds.
  match goal with |- may _ (bindM (create_attribute _ _ _ _ _) _) ?W _ =>
    edestruct (chosen_attr "CELL" "POSSIBLE_CELLS" W _ _ (length rels) rel eq_refl) as (tab & rel' & Eat & R' & St' & T1 & T2 & T3) end.
  { cbn [p_size]. destruct (p_ids sp); [easy|cbn in Hsz; lia]. }
  { cbn [p_rels]. rewrite Hrels. reflexivity. }
  { worlds. apply nth_mid. }
  { apply Bt. }
  { exact Bk. }
  { intros f t q H. now apply Bt in H. }
  eapply may_step; [exact Eat|]. clear Eat. worlds. rewrite set_mid. cbn [p_ids p_size p_attrs p_rels].
  eapply may_step; [apply alloc_gen_eq|]. worlds. eapply may_step; [apply alloc_gen_eq|]. worlds.
  match goal with |- may _ (bindM (create_story _ ?nm ?p ?f ?d ?sts ?t ?a) _) ?W _ =>
    destruct (story_runs (states_order x) nm p f d sts t a W (mkPop (p_ids sp) (p_size sp) (dset "CELL"%string (length attrs) (p_attrs sp)) (dset "POSSIBLE_CELLS"%string (length rels) (p_rels sp))) (TCyclic y))
      as (s & gens' & tgens' & Es & K1 & K2 & K3 & M1 & M2 & M3 & M4 & M5 & M6 & _) end; try assumption; try exact I.
  { reflexivity. }
  { worlds. apply nth_mid. }
  { intros st0 ga gb [H|[]]. injection H as <- <- <-. worlds.
    split; (eapply law_numeric; [|apply law_nth]).
    - instantiate (1 := GConst (vz 1)). exact I.
    - rewrite <- app_assoc. cbn [app]. apply nth_mid.
    - instantiate (1 := GConst (vz 1)). exact I.
    - apply nth_mid. }
  worlds. cbn [p_ids] in *. eapply may_step; [exact Es|]. clear Es. worlds.
  eapply may_eq; [apply set_operations_eq; worlds; apply nth_mid|]. worlds. rewrite set_mid.
  unfold Q. eexists _, tab, rel'. eexists _, tgens', s, _. split; [rewrite Hrels; cbn [dset keqb]; reflexivity|]. split; [rewrite K3; worlds; rewrite app_length; cbn; lia|].
  split.
  { eapply gens_kept_trans; [|apply gens_kept_app]. eapply gens_kept_trans; [|exact K1]. worlds. eapply gens_kept_trans; [|apply gens_kept_app]. eapply gens_kept_trans; [|apply gens_kept_app]. apply gens_kept_app. }
  split; [apply law_new|]. split; [repeat split; try assumption; apply M6|].
  split; [split; [exact R'|]; rewrite St'; apply Bt|]. split; [exact T1|].
  assert (RR : forall k v, related rel' k v <-> related rel k v) by (intros k v; unfold related; now rewrite St').
  split; [intros k v H; apply RR; auto|]. split; [intros k v H; apply RR in H; eauto|].
  exists q2. intros Hall Hc f Hf. apply In_nth_error in Hf as (i & Hi). assert (Li : i < length (p_ids sp)) by (apply nth_error_Some; congruence).
  specialize (Hall i Li). apply in_map_iff in Hall as (e & <- & He).
  destruct (bipartite_covers _ _ _ _ _ e f Egr Hne Hc ltac:(lra) He Hi) as (t & Ht).
  pose proof (add_exact _ _ _ _ _ (reach_new _ _) Erel) as P. rewrite new_rel_stored in P. cbn [app weights_list] in P.
  assert (Hin : In f (map (fun x => fst (fst x)) (lines3 (map fst df) (map snd df) rs))).
  { rewrite lines3_all by (rewrite !map_length; lia). change f with (fst (f, t)). now apply in_map. }
  apply in_map_iff in Hin as ([[f' t'] q] & <- & Hin). exists t'. apply RR. exists q. apply (Permutation_in _ (Permutation_sym P)). exact Hin.
Qed.

Lemma alloc_tgen_eq x w : alloc_tgen x w = (Ok (length (w_tgens w)), set_tgens (w_tgens w ++ [x]) w).
Proof. reflexivity. Qed.
Lemma alloc_dgen_eq x w : alloc_dgen x w = (Ok (length (w_dgens w)), set_dgens (w_dgens w ++ [x]) w).
Proof. reflexivity. Qed.
Ltac laws := solve [repeat first [apply law_new | eapply law_kept; [apply gens_kept_app|]]].

Lemma topups_may (G : Prop) x pg sd ck attrs rels gens dgens tgens sp sm rest stories names gnames recharge ag ma :
  p_size sm = Z.of_nat (length (p_ids sm)) -> NoDup (p_ids sm) -> (forall l, Permutation (states_order x l) l) ->
  ~ In "topups"%string (map st_name stories) -> dget "POSSIBLE_AGENTS"%string (p_rels sm) = Some ag -> dget "MAIN_ACCT"%string (p_attrs sm) = Some ma ->
  may G (add_topups x 1 recharge) (mkWorld pg sd ck attrs rels gens dgens tgens (sp :: sm :: rest) stories names gnames)
   (fun _ w' => exists gens' tgens' s bk,
      w' = mkWorld pg sd ck attrs rels gens' dgens tgens' (sp :: sm :: rest)
            (stories ++ [with_ops s (cdr_topups (mkCdr 0 1 0 0 0 0 ag 0 0 0 0 ma 0 recharge 0 0 0 0 0 0 0 0 (fun l => l) (time_format (of_geography x))) ++ [OpBack (length stories) bk])]) names gnames /\
      length tgens' = S (length tgens) /\ gens_kept gens gens' /\ law gens' bk (GNumpy NpUniform (random_state pg 1234) None) /\
      made s "topups" "SIM_ID" (p_ids sm) (length tgens) /\ (exists v, (v < 0)%Z /\ nth_error tgens' (length tgens) = Some (TConst v)) /\
      (forall i st z, In (i, (st, Some z)) (st_timer s) -> (z < 0)%Z)).
Proof.
  intros Hsz Nd Hord Hname Hag Hma.
  match goal with |- may _ _ _ ?X => set (Q := X) end.
  unfold add_topups. eapply may_step; [apply alloc_gen_eq|]. worlds. eapply may_step; [apply alloc_gen_eq|]. worlds. eapply may_step; [apply alloc_tgen_eq|]. worlds.
  match goal with |- may _ (bindM (create_story _ ?nm ?p ?f ?d ?sts ?t ?a) _) ?W _ =>
    destruct (story_runs (states_order x) nm p f d sts t a W sm (TConst (-1)))
      as (s & gens' & tgens' & Es & K1 & K2 & K3 & M1 & M2 & M3 & M4 & M5 & M6 & _) end; try assumption; try exact I.
  { reflexivity. }
  { worlds. apply nth_mid. }
  { intros st0 ga gb [H|[]]. injection H as <- <- <-. worlds. split; (eapply (law_numeric _ _ (GConst (vz 1))); [exact I|laws]). }
  assert (Nt : (exists v, (v < 0)%Z /\ nth_error tgens' (length tgens) = Some (TConst v)) /\ (forall i st z, In (i, (st, Some z)) (st_timer s) -> (z < 0)%Z)).
  { assert (T : without_timer (set_stories (stories ++ [s]) (set_tgens tgens' (set_gens gens' (mkWorld pg sd ck attrs rels gens dgens tgens (sp :: sm :: rest) stories names gnames)))) (length stories)).
    { eapply (created_without_timer _ _ _ _ _ _ _ _ _ _ _ sm (-1) Es Hord); [reflexivity|exact Nd|worlds; apply nth_mid|lia]. }
    destruct T as ((v & Hv & s' & Es' & Ev) & T). worlds. cbn [w_stories set_stories w_tgens] in *. rewrite nth_mid in Es'. injection Es' as <-. rewrite M5 in Ev. split; [eauto|].
    intros i st z Hi. apply (T i z). exists s, st. split; [apply nth_mid|exact Hi]. }
  worlds. eapply may_step; [exact Es|]. clear Es. worlds.
  eapply may_step; [eapply get_relationship_eq; [reflexivity|exact Hag]|]. eapply may_step; [eapply get_attribute_eq; [reflexivity|exact Hma]|].
  eapply may_eq; [apply set_operations_eq; worlds; apply nth_mid|]. worlds. rewrite set_mid.
  unfold Q. eexists _, tgens', s, _. split; [reflexivity|]. split; [rewrite K3; worlds; rewrite app_length; cbn; lia|].
  split.
  { eapply gens_kept_trans; [|apply gens_kept_app]. eapply gens_kept_trans; [|exact K1]. worlds. eapply gens_kept_trans; [|apply gens_kept_app]. apply gens_kept_app. }
  split; [apply law_new|]. split; [repeat split; try assumption; apply M6|exact Nt].
Qed.

Lemma find_story_app name l l' : forall i j, find_story name l i = Some j -> find_story name (l ++ l') i = Some j.
Proof. induction l as [|s l IH]; intros i j H; [discriminate|]. cbn [app find_story] in *. match goal with |- (if ?b then _ else _) = _ => destruct b end; [exact H|apply (IH _ _ H)]. Qed.

Lemma communications_may (G : Prop) x pg sd ck attrs rels gens dgens tgens sp sm cp rest stories names gnames recharge ag ma fr so tp ce op ms he pc :
  p_size sp = Z.of_nat (length (p_ids sp)) -> NoDup (p_ids sp) -> p_ids sp <> [] -> (forall l, Permutation (states_order x l) l) ->
  ~ In "calls"%string (map st_name stories) -> ~ In "sms"%string (map st_name stories) -> find_story "topups" stories 0 = Some tp ->
  dget "FRIENDS"%string (p_rels sp) = Some fr -> dget "SIMS"%string (p_rels sp) = Some so -> dget "POSSIBLE_CELLS"%string (p_rels sp) = Some pc -> dget "CELL"%string (p_attrs sp) = Some ce ->
  dget "POSSIBLE_AGENTS"%string (p_rels sm) = Some ag -> dget "MAIN_ACCT"%string (p_attrs sm) = Some ma -> dget "OPERATOR"%string (p_attrs sm) = Some op -> dget "MSISDN"%string (p_attrs sm) = Some ms ->
  dget "HEALTH"%string (p_attrs cp) = Some he ->
  (G -> can_start high_week_days_profile ck) ->
  may G (add_communications x 0 1 2 recharge) (mkWorld pg sd ck attrs rels gens dgens tgens (sp :: sm :: cp :: rest) stories names gnames)
   (fun c w' => exists sd' vs gens' tgens' s4 s5 b4 b5 voice text dur st1 st2 st3,
      c = mkCdr 0 1 2 fr so pc ag ce (length attrs) op ms ma he recharge voice text dur (S (length dgens)) (length dgens) tp (length stories) (S (length stories))
            (set_order x) (time_format (of_geography x)) /\
      w' = mkWorld pg sd' (register_listener ck (length tgens)) (attrs ++ [combine (p_ids sp) vs]) rels gens' (dgens ++ [DTrigger (recharge_mapper x) st1; DTrigger as_Q st2]) tgens'
            (mkPop (p_ids sp) (p_size sp) (dset "EXCITABILITY"%string (length attrs) (p_attrs sp)) (p_rels sp) :: sm :: cp :: rest)
            (stories ++ [with_ops s4 (cdr_calls c ++ [OpBack (length stories) b4]); with_ops s5 (cdr_sms c ++ [OpBack (S (length stories)) b5])]) names gnames /\
      length vs = length (p_ids sp) /\ Forall (fun v => exists n, v = VNum (beta_7_3 x n)) vs /\
      length tgens' = S (length tgens) /\ gens_kept gens gens' /\
      law gens' b4 (GNumpy NpUniform (random_state pg 1234) None) /\ law gens' b5 (GNumpy NpUniform (random_state pg 1234) None) /\
      law gens' voice (GConst (VStr "VOICE")) /\ law gens' text (GConst (VStr "SMS")) /\
      law gens' dur (GNumpy (NpChoice (map (fun k => vz (20 + Z.of_nat k)) (seq 0 220)) None) st3 None) /\
      made s4 "calls" "A_ID" (p_ids sp) (length tgens) /\ In "excited"%string (st_states s4) /\
      made s5 "sms" "A_ID" (p_ids sp) (length tgens) /\ In "excited"%string (st_states s5) /\
      (forall j, j < length tgens -> nth_error tgens' j = nth_error tgens j)).
Proof.
  intros Hsz Nd Hne Hord Hc Hs Htp R1 R2 R3 A1 R4 A2 A3 A4 A5 Hstart.
  match goal with |- may _ _ _ ?X => set (Q := X) end.
  unfold add_communications. eapply may_step; [reflexivity|]. worlds.
  match goal with |- may _ _ ?W _ => destruct (runs_seed W) as (q1 & sd1 & Eq1) end. eapply may_step; [exact Eq1|]. clear Eq1. worlds.
  set (durs := map (fun k => vz (20 + Z.of_nat k)) (seq 0 220)) in *.
  eapply may_step; [apply alloc_gen_eq|]. worlds.
  eapply may_bind; [eapply may_does; [apply alloc_cyclic_does|exact Hstart]|]. worlds. intros t w1 (sd2 & st & y & -> & _ & ->). worlds.
  match goal with |- may _ _ ?W _ => destruct (runs_seed W) as (q2 & sd3 & Eq1) end. eapply may_step; [exact Eq1|]. clear Eq1. worlds.
  eapply may_step; [apply alloc_dgen_eq|]. worlds.
  match goal with |- may _ _ ?W _ => destruct (runs_seed W) as (q3 & sd4 & Eq1) end. eapply may_step; [exact Eq1|]. clear Eq1. worlds.
  eapply may_step; [apply alloc_gen_eq|]. worlds.
  match goal with |- may _ _ ?W _ => destruct (runs_seed W) as (q4 & sd5 & Eq1) end. eapply may_step; [exact Eq1|]. clear Eq1. worlds.
  eapply may_step; [apply alloc_gen_eq|]. worlds.
  match goal with |- may _ _ ?W _ => destruct (runs_seed W) as (q5 & sd6 & Eq1) end. eapply may_step; [exact Eq1|]. clear Eq1. worlds.
  eapply may_step; [apply alloc_gen_eq|]. worlds.
  destruct (other_step (beta_7_3 x) (random_state pg q5) (p_size sp)) as (vs & hst & Hh1 & Hh2 & Hh3); [lia|].
  eapply may_step.
  { eapply (attribute_eq "EXCITABILITY" _ _ vs _ [] sp); [reflexivity|reflexivity|exact Hh3|destruct (p_ids sp); [easy|cbn in Hsz; lia]|lia]. }
  worlds. cbn [app].
  match goal with |- may _ _ ?W _ => destruct (runs_seed W) as (q6 & sd7 & Eq1) end. eapply may_step; [exact Eq1|]. clear Eq1. worlds.
  eapply may_step; [apply alloc_dgen_eq|]. worlds.
  match goal with |- may _ _ ?W _ => destruct (runs_seed W) as (q7 & sd8 & Eq1) end. eapply may_step; [exact Eq1|]. clear Eq1. worlds.
  eapply may_step; [apply alloc_gen_eq|]. worlds. eapply may_step; [apply alloc_gen_eq|]. worlds.
  match goal with |- may _ (bindM (create_story _ ?nm ?p ?f ?d ?sts ?t ?a) _) ?W _ =>
    assert (Ld : law (w_gens W) (fst d) (GPareto (Q2Qc 10) false (lomax_1_2 (of_geography x)) (random_state pg q3)) /\
                 law (w_gens W) (length gens) (GNumpy (NpChoice durs None) (random_state pg q1) None) /\ gens_kept gens (w_gens W));
    [worlds; cbn [fst]; split; [laws|split; [laws|repeat (eapply gens_kept_trans; [|apply gens_kept_app]); apply gens_kept_refl]]|];
    assert (Ne : forall st ga gb, In (st, (ga, gb)) (all_states d sts) -> numeric_gen (w_gens W) ga /\ numeric_gen (w_gens W) gb);
    [worlds; intros st0 ga gb [H|[H|[]]]; injection H as <- <- <-; split;
       (eapply law_numeric; [|laws]); exact I|];
    destruct (story_runs (states_order x) nm p f d sts t a W (mkPop (p_ids sp) (p_size sp) (dset "EXCITABILITY"%string (length attrs) (p_attrs sp)) (p_rels sp)) (TCyclic y))
      as (s4 & gens1 & tgens1 & Es & K1 & K2 & K3 & M1 & M2 & M3 & M4 & M5 & M6 & M7 & M8) end; try assumption; try exact I.
  { split; [constructor; [intros []|constructor]|]. cbn. intros [X|[]]. discriminate. }
  { reflexivity. }
  { worlds. apply nth_mid. }
  worlds. eapply may_step; [exact Es|]. clear Es. worlds. cbn [w_gens w_tgens fst p_ids] in *.
  destruct Ld as (_ & Ldur & Lk).
  eapply may_step; [apply alloc_gen_eq|]. worlds.
  match goal with |- may _ (bindM (create_story _ ?nm ?p ?f ?d ?sts ?t ?a) _) ?W _ =>
    assert (Hg1 : exists g1, nth_error tgens1 (length tgens) = Some g1);
    [destruct (nth_error tgens1 (length tgens)) as [g1|] eqn:Eg; [eauto|]; apply nth_error_None in Eg; rewrite K3, app_length in Eg; cbn in Eg; lia|];
    destruct Hg1 as (g1 & Hg1);
    destruct (story_runs (states_order x) nm p f d sts t a W (mkPop (p_ids sp) (p_size sp) (dset "EXCITABILITY"%string (length attrs) (p_attrs sp)) (p_rels sp)) g1)
      as (s5 & gens2 & tgens2 & Es & J1 & J2 & J3 & N1 & N2 & N3 & N4 & N5 & N6 & N7 & N8) end; try assumption; try exact I.
  { split; [constructor; [intros []|constructor]|]. cbn. intros [X|[]]. discriminate. }
  { reflexivity. }
  { worlds. intros st0 ga gb [H|[H|[]]]; injection H as <- <- <-; split.
    - eapply numeric_kept; [apply gens_kept_app|]. eapply numeric_kept; [exact K1|]. eapply proj1. eapply Ne. left. reflexivity.
    - eapply (law_numeric _ _ (GConst (vz 1))); [exact I|apply law_new].
    - eapply numeric_kept; [apply gens_kept_app|]. eapply numeric_kept; [exact K1|]. eapply proj1. eapply Ne. right. left. reflexivity.
    - eapply numeric_kept; [apply gens_kept_app|]. eapply numeric_kept; [exact K1|]. eapply proj2. eapply Ne. right. left. reflexivity. }
  { worlds. rewrite map_app. intros X. apply in_app_iff in X as [X|[X|[]]]; [contradiction|]. rewrite M1 in X. discriminate. }
  worlds. eapply may_step; [exact Es|]. clear Es. worlds. cbn [w_gens w_tgens fst p_ids] in *.
  eapply may_step; [eapply get_relationship_eq; [reflexivity|exact R1]|]. eapply may_step; [eapply get_relationship_eq; [reflexivity|exact R2]|].
  eapply may_step; [eapply get_attribute_eq; [reflexivity|exact A2]|]. eapply may_step; [reflexivity|]. worlds.
  rewrite <- (app_assoc stories). cbn [app]. rewrite (find_story_app _ _ _ _ _ Htp).
  eapply may_step; [apply alloc_gen_eq|]. worlds. eapply may_step; [apply alloc_gen_eq|]. worlds.
  eapply may_step; [eapply get_attribute_eq; [reflexivity|cbn [p_attrs]; rewrite dget_dset; exact A1]|].
  eapply may_step; [eapply get_attribute_eq; [reflexivity|exact A3]|]. eapply may_step; [eapply get_attribute_eq; [reflexivity|exact A4]|].
  eapply may_step; [eapply get_attribute_eq; [reflexivity|exact A5]|].
  eapply may_step; [eapply get_relationship_eq; [reflexivity|exact R3]|]. eapply may_step; [eapply get_relationship_eq; [reflexivity|exact R4]|]. cbn zeta.
  match goal with |- may _ (bindM (set_operations _ (cdr_calls ?C)) _) _ _ => set (c := C) end.
  eapply may_step; [apply (set_operations_eq _ _ _ s4); worlds; apply nth_mid|]. worlds. rewrite set_mid.
  eapply may_step; [apply (set_operations_eq _ _ _ s5); worlds; apply nth_mid2|]. worlds. rewrite set_mid2.
  assert (Ls : length (stories ++ [s4]) = S (length stories)) by (rewrite app_length; cbn; lia).
  eapply may_eq; [reflexivity|]. unfold Q. eexists _, vs, _, tgens2, s4, s5, _, _, _, _, (length gens), _, _, (random_state pg q1).
  assert (Ld : forall d : dgen, length (dgens ++ [d]) = S (length dgens)) by (intros d; rewrite app_length; cbn; lia).
  split; [unfold c; rewrite Ls, Ld; reflexivity|].
  split; [rewrite Ls, <- (app_assoc dgens); reflexivity|].
  split; [lia|]. split; [exact Hh2|]. split; [rewrite J3; worlds; rewrite K3, app_length; cbn; lia|].
  assert (Kg : forall i l, law gens1 i l -> law gens2 i l). { intros i l H. eapply law_kept; [exact J1|]. worlds. eapply law_kept; [apply gens_kept_app|exact H]. }
  split.
  { repeat (eapply gens_kept_trans; [|apply gens_kept_app]). eapply gens_kept_trans; [|exact J1]. eapply gens_kept_trans; [|apply gens_kept_app]. eapply gens_kept_trans; [exact Lk|exact K1]. }
  split; [laws|]. split; [laws|]. split; [laws|]. split; [laws|].
  split; [repeat (eapply law_kept; [apply gens_kept_app|]); apply Kg; eapply law_kept; [exact K1|exact Ldur]|].
  split; [repeat split; try assumption; apply M6|]. split; [apply M7; right; now left|]. split; [repeat split; try assumption; apply N6|]. split; [apply N7; right; now left|].
  intros j Hj. rewrite N8 by lia. worlds. rewrite M8 by lia. worlds. now rewrite nth_error_app1.
Qed.
