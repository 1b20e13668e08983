(** The CDR scenario, as constructed, is one whose stories never raise. *)
From Verif Require Import Base BaseFacts Rng RngFacts Utils UtilsFacts Relationship RelationshipFacts SpecRelationship RelationshipMany RelationshipProps
  Frame Gens GensProps Clock SpecClock ClockProps Attribute AttributeFacts SpecAttribute World Story Ops OpsFacts Circus SpecStory StoryFacts StoryNew SpecOps SpecWorld SpecPopulation GensKept PopFacts PopMore SpecSetup SetupProps
  SpecCircus SpecLocal SpecSupply SpecLedger SpecRecords SpecSafe SafeOps Geography SpecGeography GeographyRun GeographyBuild SpecComponents Components ComponentsFacts
  Cdr SpecCdr CdrSetup CdrSubs SpecCdrSetup CdrSubsProps SpecPrompt CdrStories CdrBuild.
From Coq Require Import Permutation Lqa.
Local Open Scope nat_scope.

Lemma law_const h i v : law h i (GConst v) -> nth_error h i = Some (GConst v).
Proof. intros (y & E & S). destruct y; try contradiction. cbn in S. now subst. Qed.
Lemma law_numpy h i m st : law h i (GNumpy m st None) -> exists st' b, nth_error h i = Some (GNumpy m st' b).
Proof. intros (y & E & S). destruct y; try contradiction. destruct S as [<- _]. eauto. Qed.

Lemma combine_fst {A B} (l : list A) : forall m : list B, length m = length l -> map fst (combine l m) = l.
Proof. induction l as [|a l IH]; intros [|b m] L; try discriminate; [reflexivity|]. cbn. f_equal. apply IH. cbn in L. lia. Qed.

Section Laws.
  Variable w : world.
  Lemma const_number i q : law (w_gens w) i (GConst (VNum q)) -> gives_numbers w i.
  Proof. intros H. apply law_const in H. split; [eapply sure_const; exact H|]. intros v G. inversion G; try congruence. exists q. congruence. Qed.
  Lemma const_gives i v : law (w_gens w) i (GConst v) -> never_refuses (w_gens w) i.
  Proof. intros H. apply law_const in H. eapply sure_const; exact H. Qed.
  Lemma uniform_number i st : law (w_gens w) i (GNumpy NpUniform st None) -> gives_numbers w i.
  Proof. intros H. apply law_numpy in H as (st' & b & H). split; [eapply sure_uniform; exact H|]. intros v G. inversion G; try congruence. eexists. reflexivity. Qed.
  Lemma other_number i f st : law (w_gens w) i (GNumpy (NpOther f) st None) -> gives_numbers w i.
  Proof. intros H. apply law_numpy in H as (st' & b & H). split; [eapply sure_law; exact H|]. intros v G. inversion G; try congruence. eexists. reflexivity. Qed.
  Lemma choice_number i a st : law (w_gens w) i (GNumpy (NpChoice a None) st None) -> a <> [] -> (forall v, In v a -> a_number v) -> gives_numbers w i.
  Proof.
    intros H Ha Hn. apply law_numpy in H as (st' & b & H). split; [eapply sure_choice; [exact H|exact Ha]|]. intros v G. inversion G as [| | |j a' s' b' v' E Hin| | | | | | | | | |]; try congruence.
    subst. rewrite H in E. injection E as <- _ _. auto.
  Qed.

  Lemma between_choosable r rel froms tos : nth_error (w_rels w) r = Some rel -> between rel froms tos -> choosable w r.
  Proof.
    intros E (R & B). exists rel. split; [exact E|]. split; [intros f t q H; apply Qlt_le_weak; now apply B in H|].
    intros f H. destruct (tos_stored rel f) as [|t l] eqn:Et; [cbn in H; lia|]. assert (K : In t (tos_stored rel f)) by (rewrite Et; now left).
    unfold tos_stored in K. apply in_map_iff in K as ([[f' t'] q] & <- & K). apply filter_In in K as [K F]. cbn in F. destruct (keqb_spec f' f) as [->|]; [|discriminate].
    exists t', q. split; [exact K|]. now apply B in K.
  Qed.
  Lemma combine_filled a ids vs (ok : val -> Prop) : nth_error (w_attrs w) a = Some (combine ids vs) -> length vs = length ids -> NoDup ids -> (forall v, In v vs -> ok v) -> filled w a ids (fun _ => ok).
  Proof.
    intros E L N H. exists (combine ids vs). split; [exact E|].
    pose proof (combine_fst ids vs L) as M.
    rewrite M. split; [exact N|]. split; [apply incl_refl|]. intros k v Hin. apply H. eapply in_combine_r. exact Hin.
  Qed.
  Lemma related_items r rel k v : nth_error (w_rels w) r = Some rel -> (In v (items w r k) <-> related rel k v).
  Proof.
    intros E. rewrite in_items_of. unfold pairs_of. rewrite E. split.
    - intros H. apply in_map_iff in H as ([[a b] q] & [= -> ->] & H). now exists q.
    - intros (q & H). apply in_map_iff. now exists (k, v, q).
  Qed.
End Laws.

Lemma planned_plain name p t auto ids xmin lomax s : plain name p t auto ids xmin lomax s -> planned s.
Proof.
  intros (_&_&_&_&_&_&_& Hi & (S1 & S2 & S3 & _) & Hst & _). unfold planned. split; [exact S2|]. rewrite S1. split; [now left|]. split.
  - intros i st r H. assert (K : dget i (st_timer s) = Some (st, r)) by (apply In_dget; [exact S2|exact H]).
    assert (I : In i ids). { rewrite <- Hi. unfold st_ids, dkeys. change i with (fst (i, (st, r))). now apply in_map. }
    specialize (Hst i I). unfold state_of in Hst. rewrite K in Hst. cbn in Hst. injection Hst as ->. now left.
  - intros i st q I [<-|[]]. destruct (S3 i I) as (a & Ha). unfold declared in *. destruct (dget i (st_params s)) as [d|]; [|discriminate].
    destruct (dget "default"%string d) as [[a0 b0]|]; [|discriminate]. destruct q; cbn; eauto.
Qed.

Lemma mapping_bounds ids : forall opss, length opss = length ids -> Forall good_operators opss ->
  length ids <= length (subs_ops_mapping ids opss) <= 4 * length ids.
Proof.
  intros opss L G. rewrite mapping_length by exact L. rewrite <- L. clear L. induction G as [|o opss (G1 & _) G IH]; cbn [map list_sum fold_right length]; [lia|].
  change (fold_right Nat.add 0 (map (@length val) opss)) with (list_sum (map (@length val) opss)). lia.
Qed.
(** What the construction needs of its parameters and of networkx. *)
Definition buildable (x : cdr_sources) (params : cdr_params) (ck : clock) : Prop :=
  (0 < n_subscribers params)%Z /\ (4 * n_subscribers params <= 7 * (10 ^ Z.of_nat (digits params) - 1))%Z /\
  (forall s m, (0 < n_agents params)%Z -> 0 < m -> sound_graph (nx_bipartite x s m (Z.to_nat (n_agents params)) (3#10)) m (Z.to_nat (n_agents params))) /\
  (forall s, sound_graph (nx_bipartite x s (Z.to_nat (n_subscribers params)) (Z.to_nat n_cells) (4#10)) (Z.to_nat (n_subscribers params)) (Z.to_nat n_cells)) /\
  can_start uganda_profile ck /\ can_start mobility_profile ck /\ can_start high_week_days_profile ck.

Definition scenario (x : cdr_sources) (params : cdr_params) (w : world) (c : cdr) : Prop :=
  exists unhealthy healthy subscribers simcards antennas,
    cdr_circus w c (of_geography x) unhealthy healthy subscribers simcards antennas /\
    telephony w params (k_subs c) (k_sims_pop c) (k_sims_of c) (k_agents c) (k_operator c) (k_main_acct c) (k_msisdn c) subscribers simcards /\
    ((forall i, In i subscribers -> items w (k_possible_cells c) i <> []) -> (second <= Clock.c_step (w_clock w))%Z ->
     cdr_ready w c unhealthy healthy subscribers simcards antennas) /\
    (nobody_alone x params -> forall i, In i subscribers -> items w (k_possible_cells c) i <> []) /\
    ~ In VNA subscribers /\ without_timer w (k_topups c).

Lemma subs_ids_length params : length (subs_ids params) = Z.to_nat (n_subscribers params).
Proof. unfold subs_ids. now rewrite map_length, build_ids_length. Qed.
Lemma agent_ids_length params : length (agent_ids params) = Z.to_nat (n_agents params).
Proof. unfold agent_ids. now rewrite map_length, build_ids_length. Qed.
Lemma sims_ids_length m : length (sims_ids m) = m.
Proof. unfold sims_ids. rewrite map_length, build_ids_length. lia. Qed.
Lemma register_clock c l : c_date (register_listener c l) = c_date c /\ c_step (register_listener c l) = c_step c.
Proof. split; reflexivity. Qed.
Lemma start_registered p c l : can_start p c -> can_start p (register_listener c l).
Proof. intros H. exact H. Qed.

Lemma build_may x params pg sd ck : (0 < n_subscribers params)%Z -> sane_sources x ->
  may (buildable x params ck) (build_cdr x params) (mkWorld pg sd ck [] [] [] [] [] [] [] [] []) (fun c w => scenario x params w c /\ c_date (w_clock w) = c_date ck /\ c_step (w_clock w) = c_step ck).
Proof.
  intros Hn (Hexp & Hlomax & Hso & Hto). set (G := buildable x params ck).
  match goal with |- may _ _ _ ?X => set (Q := X) end.
  unfold build_cdr.
  destruct (create_subs_does x params pg sd ck Hn) as (opss & gs & Lo & Go & D). cbn zeta in D.
  pose proof (mapping_bounds _ _ Lo Go) as Bm. pose proof (subs_ids_length params) as Ls.
  set (mapping := subs_ops_mapping (subs_ids params) opss) in *. set (sims := sims_ids (length mapping)) in *.
  assert (Lsims : length sims = length mapping) by apply sims_ids_length.
  eapply may_bind; [eapply may_does; [exact D|]|]. clear D.
  { intros (B1 & B2 & B3 & _). split; [unfold enough_numbers; lia|]. pose proof (agent_ids_length params) as La.
    destruct (Z.ltb_spec 0 (n_agents params)) as [Ha|Ha].
    - destruct (B3 gs (length mapping) Ha ltac:(lia)) as [G1 G2].
      destruct (bipartite_edges sims (agent_ids params) (3#10) (nx_bipartite x gs (length sims) (length (agent_ids params)) (3#10))) as (df & E & _); [now rewrite Lsims, La| | |lra|now rewrite Lsims, La|eauto].
      + intros X. rewrite X in Lsims. cbn in Lsims. lia.
      + intros X. rewrite X in La. cbn in La. lia.
    - exists []. unfold make_random_bipartite_data. rewrite La. replace (Z.to_nat (n_agents params)) with 0 by lia. cbn [Nat.eqb]. now rewrite orb_true_r. }
  cbv beta. intros r w1 (df & numbs & ws & rs & s1 & rel_sims & s2 & rel_agents & sd1 & g0 & g1 & g3 & g4 & -> & Eg & Ln & Nn & Hnum & Hws & Ers & Lrs & Es & Ea & ->).
  eapply may_bind; [eapply may_does; [apply add_judges_does|]|].
  { intros (_ & _ & _ & _ & B5 & _). unfold geography_free. worlds. split; [reflexivity|]. split; [reflexivity|]. split; [exact B5|]. split; intros []. }
  cbv beta. worlds. intros r w1 (healths & sizes & assigned & relc & s & sd2 & gens & st0 & y & bins & tg & u & h & bk & bk' & sb & sr & -> & H1 & H2 & H3 & H4 & H5 & H6 & H7 & _ & _ & _ & Pb & _ & Pr & Lu & Lh & _ & _ & -> & Jb & Jr).
  cbn [app length Nat.add] in *. unfold health_law, judge_law in Lu, Lh, Jb, Jr. cbn [w_gens] in Lu, Lh, Jb, Jr.
  destruct Lu as (lu & Lu), Lh as (lh & Lh), Jb as (jb & Jb), Jr as (jr & Jr). apply law_nth in Lu, Lh, Jb, Jr.
  assert (Lrec : law (g0 :: g1 :: GConst (vz 1000) :: g3 :: g4 :: gens) 2 (GConst (vz 1000))) by (apply law_nth; reflexivity).
  revert Lu Lh Jb Jr Lrec. generalize (g0 :: g1 :: GConst (vz 1000) :: g3 :: g4 :: gens). clear gens g0 g1 g3 g4. intros gens Lu Lh Jb Jr Lrec.
  cbn [dset keqb] in *.
  set (spop := mkPop (subs_ids params) (n_subscribers params) [] [("SIMS"%string, 0)]).
  assert (Nsub : NoDup (subs_ids params)) by apply seq_ids_NoDup. assert (Nsim : NoDup sims) by apply seq_ids_NoDup.
  assert (Esub : subs_ids params <> []) by (intros X; rewrite X in Ls; cbn in Ls; lia).
  destruct Pb as [Nb Pb']. assert (Pb := conj Nb Pb'). clear Pb'. destruct Pr as [Nr Pr']. assert (Pr := conj Nr Pr'). clear Pr'.
  match goal with |- may _ _ (mkWorld ?pg0 ?sd0 ?ck0 ?at0 ?rl0 ?gn0 ?dg0 ?tg0 (_ :: ?smp :: ?cpo :: ?rest) ?st0 ?nm0 ?gnm0) _ =>
    pose proof (mobility_may G x pg0 sd0 ck0 at0 rl0 gn0 dg0 tg0 spop smp cpo rest st0 nm0 gnm0) as MM end.
  eapply may_bind; [apply MM; clear MM|clear MM].
  { cbn [p_size p_ids spop]. lia. }
  { exact Nsub. }
  { exact Esub. }
  { reflexivity. }
  { exact Hexp. }
  { exact Hso. }
  { cbn [map st_name with_ops]. rewrite Nb, Nr. intros [X|[X|[]]]; discriminate. }
  { intros (_ & _ & _ & _ & _ & B6 & _). exact B6. }
  { intros (_ & _ & _ & B4 & _) seed. cbn [p_ids spop]. rewrite cell_ids_length, Ls. destruct (B4 seed) as [S1 S2].
    destruct (bipartite_edges (subs_ids params) cell_ids (4#10) (nx_bipartite x seed (Z.to_nat (n_subscribers params)) (Z.to_nat n_cells) (4#10))) as (dfc & E & _);
      [exact S1|exact Esub| |lra|now rewrite cell_ids_length, Ls|eauto].
    intros X. pose proof cell_ids_length as Lc. rewrite X in Lc. cbn [length] in Lc. pose proof n_cells_pos. lia. }
  cbv beta. cbn [length app]. intros [] w1 (sd3 & tab & relp & gens2 & tgens2 & s3 & b3 & -> & T3 & K3 & J3 & (M31 & M32 & M33 & M34 & M35) & Bp & Tb1 & Tb2 & Tb3 & gseed & Call).
  cbn [p_ids p_size p_attrs p_rels spop dset] in *.
  match goal with |- may _ (bindM (add_er_social_network ?lo ?sk ?p ?nm ?dg) _) ?W _ =>
    destruct (er_world lo sk p nm dg W (mkPop (subs_ids params) (n_subscribers params) [("CELL"%string, 7)] [("SIMS"%string, 0); ("POSSIBLE_CELLS"%string, 3)]) eq_refl Nsub Esub) as (relf & sd4 & Ee & Rf & Sf & Wf) end.
  eapply may_step; [exact Ee|]. clear Ee. worlds. cbn [app length set_nth p_ids p_size p_attrs p_rels dset].
  match goal with |- may _ _ (mkWorld ?pg0 ?sd0 ?ck0 ?at0 ?rl0 ?gn0 ?dg0 ?tg0 (?sp0 :: ?smp :: ?rest) ?st0 ?nm0 ?gnm0) _ =>
    pose proof (topups_may G x pg0 sd0 ck0 at0 rl0 gn0 dg0 tg0 sp0 smp rest st0 nm0 gnm0 2 1 1) as MM end.
  eapply may_bind; [apply MM; clear MM|clear MM].
  { cbn [p_size p_ids]. lia. }
  { exact Nsim. }
  { exact Hso. }
  { cbn [map st_name with_ops]. rewrite Nb, Nr, M31. intros [X|[X|[X|[]]]]; discriminate. }
  { reflexivity. }
  { reflexivity. }
  cbv beta. cbn [length app]. intros [] w1 (gens3 & tgens3 & s4 & b4 & -> & T4 & K4 & J4 & (M41 & M42 & M43 & M44 & M45) & (vn & Hvn & Nt1) & Nt2).
  cbn [p_ids] in *.
  match goal with |- may _ _ (mkWorld ?pg0 ?sd0 ?ck0 ?at0 ?rl0 ?gn0 ?dg0 ?tg0 (?sp0 :: ?smp :: ?cpo :: ?rest) ?st0 ?nm0 ?gnm0) _ =>
    pose proof (communications_may G x pg0 sd0 ck0 at0 rl0 gn0 dg0 tg0 sp0 smp cpo rest st0 nm0 gnm0 2 1 1 4 0 3 7 0 2 5 3) as MM end.
  eapply may_weaken; [apply MM; clear MM|clear MM].
  { cbn [p_size p_ids]. lia. }
  { exact Nsub. }
  { exact Esub. }
  { exact Hso. }
  { cbn [map st_name with_ops]. rewrite Nb, Nr, M31, M41. intros [X|[X|[X|[X|[]]]]]; discriminate. }
  { cbn [map st_name with_ops]. rewrite Nb, Nr, M31, M41. intros [X|[X|[X|[X|[]]]]]; discriminate. }
  { cbn [find_story st_name with_ops]. rewrite Nb, Nr, M31, M41. reflexivity. }
  all: try reflexivity.
  { intros (_ & _ & _ & _ & _ & _ & B7). exact B7. }
  cbv beta. cbn [length app p_ids p_size p_attrs p_rels dset]. 
  intros c w (sd5 & vs & gens4 & tgens4 & s5 & s6 & b5 & b6 & voice & text & dur & st1 & st2 & st3 & -> & -> & Lvs & Hvs & T5 & K5 & J5 & J6 & Lv & Lt & Ldu & (M51 & M52 & M53 & M54 & M55) & X5 & (M61 & M62 & M63 & M64 & M65) & X6 & T6).
  unfold Q. clear Q. split; [|split; reflexivity].
  assert (LK : forall i l, law gens i l -> law gens4 i l) by (intros i l L; eapply law_kept; [exact K5|]; eapply law_kept; [exact K4|]; eapply law_kept; [exact K3|exact L]).
  assert (LK2 : forall i l, law gens2 i l -> law gens4 i l) by (intros i l L; eapply law_kept; [exact K5|]; eapply law_kept; [exact K4|exact L]).
  assert (LK3 : forall i l, law gens3 i l -> law gens4 i l) by (intros i l L; eapply law_kept; [exact K5|exact L]).
  apply LK in Lu, Lh, Jb, Jr, Lrec. apply LK2 in J3. apply LK3 in J4. clear LK LK2 LK3 K3 K4 K5.
  match goal with |- scenario _ _ ?W ?C => set (w := W); set (c := C) end.
  exists u, h, (subs_ids params), sims, cell_ids.
  assert (Tel : telephony w params 0 1 0 1 0 1 2 (subs_ids params) sims).
  { eapply (built_telephony params w opss df numbs rs pg s1 s2 rel_sims rel_agents); try eassumption; try reflexivity.
    - intros a b Hab. pose proof (bipartite_spec _ _ _ _ _ Eg) as F. rewrite Forall_forall in F. exact (F _ Hab).
    - split; [reflexivity|]. eexists. split; [reflexivity|]. split; reflexivity.
    - split; [reflexivity|]. eexists. split; [reflexivity|]. repeat split. }
  pose proof Pb as (_ & _ & Fb & Tgb & _ & _ & _ & Ib & _). pose proof Pr as (_ & _ & Fr & Tgr & _ & _ & _ & Ir & _).
  split; [|split; [exact Tel|split; [|split; [|split]]]].
  - constructor.
    + repeat split.
    + eexists. split; [reflexivity|]. split; [exact Fb|]. split; [exact Ib|]. eexists. reflexivity.
    + eexists. split; [reflexivity|]. split; [exact Fr|]. split; [exact Ir|]. eexists. reflexivity.
    + eexists. split; [reflexivity|]. split; [exact M32|]. split; [exact M33|]. eexists. reflexivity.
    + eexists. split; [reflexivity|]. split; [exact M42|]. split; [exact M43|]. eexists. reflexivity.
    + eexists. split; [split; [reflexivity|]; split; [exact M52|]; split; [exact M53|]; eexists; reflexivity|]. exact X5.
    + eexists. split; [split; [reflexivity|]; split; [exact M62|]; split; [exact M63|]; eexists; reflexivity|]. exact X6.
    + unfold has_attribute. repeat split; eexists; split; reflexivity.
    + cbn [c k_cell k_excitability k_operator k_msisdn k_main_acct k_health]. apply nodupb_NoDup. reflexivity.
  - intros Hposs Hstep.
    assert (Rp : forall k v, In v (items w 3 k) <-> related relp k v) by (intros k v; apply related_items; reflexivity).
    destruct Bp as [Rre Bp].
    constructor.
    + exists tab. split; [reflexivity|]. split; [exact Tb1|]. split.
      * intros i Hi. specialize (Hposs i Hi). cbn [c k_possible_cells] in Hposs. destruct (items w 3 i) as [|v l] eqn:Ei; [contradiction (Hposs eq_refl)|]. apply (Tb3 i v). apply Rp. rewrite Ei. now left.
      * intros k v Hkv. apply Rp. apply Tb2. exact Hkv.
    + eapply combine_filled; [reflexivity|exact Lvs|exact Nsub|]. intros v Hv. rewrite Forall_forall in Hvs. destruct (Hvs _ Hv) as (n & ->). eexists. reflexivity.
    + apply (combine_filled w 0 sims (map snd mapping) (fun _ => True)); [reflexivity|rewrite map_length; lia|exact Nsim|auto].
    + apply (combine_filled w 2 sims numbs (fun _ => True)); [reflexivity|lia|exact Nsim|auto].
    + eapply (combine_filled w 1 sims (repeat (vz 1000) (length mapping))); [reflexivity|rewrite repeat_length; lia|exact Nsim|]. intros v Hv. apply repeat_spec in Hv. subst v. eexists. reflexivity.
    + eapply (combine_filled w 5 cell_ids healths); [reflexivity|exact H1|apply cell_ids_NoDup|]. intros v Hv. rewrite Forall_forall in H2. destruct (H2 _ Hv) as (n & ->). eexists. reflexivity.
    + exact Hposs.
    + intros i v Hv. apply Rp in Hv as (q & Hq). apply Bp in Hq as (_ & Hq & _). exact Hq.
    + intros i sim Hi. pose proof (tel_owned _ _ _ _ _ _ _ _ _ _ _ Tel i sim Hi) as Hs. split; [|exact Hs].
      destruct (tel_owner _ _ _ _ _ _ _ _ _ _ _ Tel sim Hs) as (j & Hj & Hij). apply Hij in Hi. rewrite Hi. exact Hj.
    + intros i j sim Hi Hj. pose proof (tel_owned _ _ _ _ _ _ _ _ _ _ _ Tel i sim Hi) as Hs.
      destruct (tel_owner _ _ _ _ _ _ _ _ _ _ _ Tel sim Hs) as (k & _ & Hk). apply Hk in Hi, Hj. rewrite Hi, Hj. reflexivity.
    + exists rel_sims. split; [reflexivity|]. left. intros f t q Hq.
      apply (Permutation_in _ (add_exact _ _ _ _ _ (reach_new _ _) Es)) in Hq. rewrite new_rel_stored in Hq. cbn [app] in Hq. apply lines3_pos in Hq as [Hq _].
      pose proof (in_combine_l _ _ _ _ Hq) as Q1. pose proof (in_combine_r _ _ _ _ Hq) as Q2. apply in_map_iff in Q1 as ([i o] & <- & Q1). apply mapping_in in Q1 as [Q1 _].
      unfold subs_ids in Q1. apply in_map_iff in Q1 as (a & <- & _). unfold sims, sims_ids in Q2. apply in_map_iff in Q2 as (b & <- & _). split; reflexivity.
    + intros l Hl. apply in_app_iff in Hl as [Hl|Hl]; [|apply in_app_iff in Hl as [Hl|Hl]]; unfold subs_ids, sims, sims_ids, cell_ids in Hl; apply in_map_iff in Hl as (a & Hl & _); discriminate.
    + split; [|split].
      * eapply between_choosable; [reflexivity|split; [exact Rre|exact Bp]].
      * eapply (between_choosable w 4 relf (subs_ids params) (subs_ids params)); [reflexivity|]. split; [exact Rf|]. intros f t q Hq. destruct Sf as (_ & Sf & _). assert (Rl : related relf f t) by (exists q; exact Hq). apply Sf in Rl as [Rl1 Rl2].
        split; [exact Rl1|]. split; [exact Rl2|]. pose proof (Wf Hlomax f t q Hq). lra.
      * assert (Ba : between rel_agents sims (agent_ids params)).
        { eapply (new_between pg s2 df (exponential x) ws rs); [exact Hexp|exact Hws|exact Ers|exact (bipartite_spec _ _ _ _ _ Eg)|exact Lrs|exact Ea]. }
        eapply between_choosable; [reflexivity|exact Ba].
    + split; [eapply other_number; exact Lu|]. split; [eapply other_number; exact Lh|]. split; [eapply const_number; exact Lrec|].
      split; [eapply choice_number; [exact Ldu|discriminate|]|].
      { intros v Hv. apply in_map_iff in Hv as (k & <- & _). eexists. reflexivity. }
      split; [eapply const_gives; exact Lv|eapply const_gives; exact Lt].
    + split; eexists _, _; (split; [reflexivity|]); intros q; eexists; reflexivity.
    + intros a s0 judge Ha Hj.
      assert (X : judge = bk \/ judge = bk' \/ judge = b3 \/ judge = b4 \/ judge = b5 \/ judge = b6).
      { do 6 (destruct a as [|a]; [cbn [nth_error w w_stories] in Ha; injection Ha as <-; cbn in Hj;
          repeat (destruct Hj as [Hj|Hj]; [first [discriminate|injection Hj as <-; auto 10]|]); contradiction|]). destruct a; discriminate. }
      destruct X as [->|[->|[->|[->|[->| ->]]]]]; eapply uniform_number; eassumption.
    + exact Hto.
    + intros a s0 Ha.
      assert (X : planned s0 /\ st_tgen s0 < 4).
      { cbn [length] in *. destruct a as [|[|[|[|[|[|a]]]]]]; cbn [nth_error w w_stories] in Ha; [| | | | | |destruct a; discriminate]; injection Ha as <-; (split; [apply planned_ops|cbn [st_tgen with_ops]; lia]).
        - eapply planned_plain. exact Pb.
        - eapply planned_plain. exact Pr.
        - exact M35.
        - exact M45.
        - exact M55.
        - exact M65. }
      destruct X as [X1 X2]. destruct (nth_error tgens4 (st_tgen s0)) as [gt|] eqn:Et; [eapply planned_scheduled; [exact X1|exact Et]|]. apply nth_error_None in Et. cbn [length] in *. lia.
    + cbn [w w_rels]. repeat constructor; try assumption; (eapply reach_add; [apply reach_new|eassumption]).
    + exact Hstep.
  - intros Hall i Hi E. rewrite cell_ids_length, Ls in Call. destruct (Call (Hall gseed)) with (f := i) as (t & Ht); [|exact Hi|].
    + intros X. pose proof cell_ids_length as Lc. rewrite X in Lc. cbn [length] in Lc. pose proof n_cells_pos. lia.
    + apply (related_items w 3 relp i t) in Ht; [|reflexivity]. cbn [c k_possible_cells] in E. rewrite E in Ht. destruct Ht.
  - unfold subs_ids. intros X. apply in_map_iff in X as (a & X & _). discriminate.
  - split.
    + exists vn. split; [exact Hvn|]. eexists. split; [reflexivity|]. cbn [st_tgen with_ops w w_tgens]. rewrite M44, T6 by (cbn [length] in *; lia). exact Nt1.
    + intros i z (s0 & st & Es0 & Hi). cbn [c k_topups w w_stories nth_error] in Es0. injection Es0 as <-. exact (Nt2 _ _ _ Hi).
Qed.
