(** The scenario of tests/scenarios/test_snd.py never raises (C145). *)
From Verif Require Import Base BaseFacts Rng Utils Relationship RelationshipFacts SpecRelationship Frame Gens Clock SpecClock Attribute SpecAttribute AttributeFacts World Story Ops Helpers
  Fs Circus SpecStory SpecOps SpecCircus SpecWorld WorldProps SpecPopulation GensKept PopProps SpecLocal CircusProps SpecSupply SpecFs SpecLedger SpecRecords RecordsGens RecordsProps RecordsMore
  SpecNow NowProps SpecSafe SafeRun Samples StorySamples PropCircus PropRecords PropOps PropSafe Cdr SpecCdr PropCdr SpecCdrLogs Snd SpecSnd SpecSndReady SndBooks SndTruth SndSafe PropSnd.
From Coq Require Import Permutation.

(** ** C145.  The scenario never raises, whatever happens and however long it runs, provided that dealers buy from
    distributors of the population, that numbers of SIMs are whole, and that attributes are filled ([snd_ready]).
    A dealer without distributor, and an agent without dealer, are allowed. *)
Theorem C145_never_raises w c distributors dealers agents hs : snd_circus w c distributors dealers agents -> snd_ready w c distributors dealers agents ->
  Forall (sensible w) hs -> exists wend, history w hs wend.
Proof. intros F R. exact (C134_never_raises w hs (snd_well_formed _ _ _ _ _ F R)). Qed.
Print Assumptions C145_never_raises.

Theorem C145_run_completes w c distributors dealers agents duration folder del fs : snd_circus w c distributors dealers agents -> snd_ready w c distributors dealers agents ->
  startable fs folder del -> exists wend fs' tr, run duration folder del w fs = (Ok tt, (wend, fs', tr)).
Proof.
  intros F R Hs. apply (C134_run_completes duration folder del w fs); [exact (snd_well_formed _ _ _ _ _ F R)|exact Hs|].
  pose proof (ready_tick _ _ _ _ _ R) as K. unfold second in K. lia.
Qed.
Print Assumptions C145_run_completes.

(** The sample of C141. *)
Lemma snd_Tm : forallb (fun s : story => forallb (fun x : val * (string * option Z) => mem (fst (snd x)) (st_states s)) (st_timer s)) (w_stories snd_sample) = true.
Proof. vm_compute. reflexivity. Qed.
Lemma snd_Tg : forallb (fun s => st_tgen s <? length (w_tgens snd_sample)) (w_stories snd_sample) = true.
Proof. vm_compute. reflexivity. Qed.
Lemma snd_Sc : (second <= Clock.c_step (w_clock snd_sample))%Z.
Proof. vm_compute. discriminate. Qed.
Lemma weights_choosable w r l : match nth_error (w_rels w) r with Some rel => stored rel = l | None => False end -> (forall f t q, In (f, t, q) l -> (0 < q)%Q) -> choosable w r.
Proof.
  unfold choosable. destruct (nth_error (w_rels w) r) as [rel|]; [|contradiction]. intros E P. exists rel. split; [reflexivity|]. rewrite E. split.
  - intros f t q H. apply Qlt_le_weak. eauto.
  - intros f H. unfold tos_stored in H. rewrite E in H. destruct (filter _ _) as [|[[f' t] q] rest] eqn:Ef; [cbn in H; lia|].
    assert (K : In (f', t, q) (filter (fun x => keqb (fst (fst x)) f) l)) by (rewrite Ef; now left).
    apply filter_In in K as [K1 K2]. cbn in K2. apply keqb_eq in K2. subst f'. exists t, q. split; [exact K1|]. eauto.
Qed.
Lemma snd_sample_ready : snd_ready snd_sample shops distro_names dealer_names agent_names.
Proof.
  assert (P4 : pairs_of snd_sample 4 = [(s_ "P", s_ "D1"); (s_ "Q", s_ "D1")]) by (vm_compute; reflexivity).
  assert (A0 : nth_error (w_attrs snd_sample) 0 = Some [(s_ "D1", vnat 0)]) by (vm_compute; reflexivity).
  assert (A1 : nth_error (w_attrs snd_sample) 1 = Some [(s_ "P", vnat 1); (s_ "Q", vnat 2)]) by (vm_compute; reflexivity).
  assert (A2 : nth_error (w_attrs snd_sample) 2 = Some [(s_ "A", s_ "Ann"); (s_ "B", s_ "Bob"); (s_ "C", s_ "Cid")]) by (vm_compute; reflexivity).
  assert (A3 : skipn 3 (w_attrs snd_sample) = [[]; []; []; []]) by (vm_compute; reflexivity).
  assert (Po : match nth_error (w_pops snd_sample) 3 with Some po => p_attrs po = [("DATE", 3); ("TEXT", 4); ("AGENT_ID", 5); ("AGENT_NAME", 6)]%string | None => False end) by (vm_compute; reflexivity).
  assert (G : firstn 8 (w_gens snd_sample) = [GConst (vz 1); GConst (vz 0); GConst (vz 1); GSeq 4 "SIM_" 3; GSeq 0 "REVIEW_ID" 1; GConst (s_ "Good."); GConst (s_ "going"); GConst (s_ "returning")]) by (vm_compute; reflexivity).
  assert (R1 : match nth_error (w_rels snd_sample) 1 with Some rel => stored rel = map (fun x => (x, 1%Q)) [(s_ "P", s_ "P1"); (s_ "broke", s_ "B0"); (s_ "broke", s_ "B1"); (s_ "broke", s_ "B2")] | None => False end) by (vm_compute; reflexivity).
  assert (R3 : match nth_error (w_rels snd_sample) 3 with Some rel => stored rel = [(s_ "A", s_ "P", 1%Q); (s_ "A", s_ "broke", 4%Q); (s_ "B", s_ "Q", 1%Q); (s_ "B", s_ "broke", 4%Q); (s_ "C", s_ "broke", 4%Q)] | None => False end) by (vm_compute; reflexivity).
  assert (R4 : match nth_error (w_rels snd_sample) 4 with Some rel => stored rel = map (fun x => (x, 1%Q)) [(s_ "P", s_ "D1"); (s_ "Q", s_ "D1")] | None => False end) by (vm_compute; reflexivity).
  assert (Js : map (fun s => flat_map (fun o => match o with OpBack _ j => [j] | _ => [] end) (st_ops s)) (w_stories snd_sample) = [[8]; [9]; [10]; [11]; [12]; [13]]) by (vm_compute; reflexivity).
  assert (Gj : map (fun g => match g with GNumpy NpUniform _ _ => true | _ => false end) (skipn 8 (w_gens snd_sample)) = repeat true 6) by (vm_compute; reflexivity).
  assert (Ho : match nth_error (w_stories snd_sample) 1 with Some s => st_states s = ["default"; "on_holiday"]%string | None => False end) by (vm_compute; reflexivity).
  pose proof snd_Tm as Tm. pose proof snd_Tg as Tg. pose proof snd_Sc as Sc. pose proof snd_sample_built as B.
  revert P4 A0 A1 A2 A3 Po G R1 R3 R4 Js Gj Ho Tm Tg Sc B. generalize snd_sample as w. intros w P4 A0 A1 A2 A3 Po G R1 R3 R4 Js Gj Ho Tm Tg Sc B.
  assert (Gen : forall i g, i < 8 -> nth_error (firstn 8 (w_gens w)) i = Some g -> nth_error (w_gens w) i = Some g).
  { intros i g Hi E. rewrite <- (firstn_skipn 8 (w_gens w)). rewrite nth_error_app1; [exact E|]. apply nth_error_Some. congruence. }
  rewrite G in Gen.
  constructor; cbn [shops n_to_restock n_bulk_size n_agent_name n_reviews n_distro_of n_dealers_of n_dealer_sims n_review_ids n_texts n_going n_returning].
  - apply (table_filled _ _ _ _ _ A0); [reflexivity|reflexivity|]. intros kv [<-|[]]. eexists. reflexivity.
  - apply (table_filled _ _ _ _ _ A1); [reflexivity|reflexivity|]. intros kv [<-|[<-|[]]]; eexists; reflexivity.
  - apply (table_filled _ _ _ _ _ A2); [reflexivity|reflexivity|]. trivial.
  - destruct (nth_error (w_pops w) 3) as [po|]; [|contradiction]. exists po. split; [reflexivity|]. rewrite Po. cbn [map fst]. split; [reflexivity|].
    assert (At : forall x, x < 4 -> nth_error (w_attrs w) (3 + x) = Some []).
    { intros x Hx. assert (Hl : length (firstn 3 (w_attrs w)) = 3).
      { apply firstn_length_le. assert (K : length (skipn 3 (w_attrs w)) = 4) by (rewrite A3; reflexivity). rewrite skipn_length in K. lia. }
      rewrite <- (firstn_skipn 3 (w_attrs w)), nth_error_app2 by lia. rewrite Hl, A3. replace (3 + x - 3) with x by lia. destruct x as [|[|[|[|x]]]]; try reflexivity. lia. }
    intros name x [H|[H|[H|[H|[]]]]]; injection H as <- <-; (split; [exists []; split; [|constructor]|split; discriminate]).
    + exact (At 0 ltac:(lia)).
    + exact (At 1 ltac:(lia)).
    + exact (At 2 ltac:(lia)).
    + exact (At 3 ltac:(lia)).
  - intros i v H. apply in_items in H. rewrite P4 in H. clear - H. cases H; cbn; tauto.
  - intros l H. cbn in H. clear - H. intuition discriminate.
  - split; [|exact (ones_choosable _ _ _ R4)]. apply (weights_choosable _ _ _ R3). intros f t q H. clear - H. cbn in H. repeat (destruct H as [H|H]; [injection H as <- <- <-; reflexivity|]). contradiction.
  - destruct (nth_error (w_rels w) 1) as [rel|]; [|contradiction]. exists rel. split; [reflexivity|]. rewrite R1. intros f t q H. apply in_map_iff in H as (x & [= -> <-] & _). reflexivity.
  - split; [eapply sure_ids; apply Gen; [lia|reflexivity]|]. split; [eapply sure_const; apply Gen; [lia|reflexivity]|]. split; eapply sure_const; (apply Gen; [lia|reflexivity]).
  - intros a s judge Hs Hj.
    assert (K : In judge [8; 9; 10; 11; 12; 13]).
    { assert (Hin : In judge (concat (map (fun s => flat_map (fun o => match o with OpBack _ j => [j] | _ => [] end) (st_ops s)) (w_stories w)))).
      { apply in_concat. eexists. split; [apply in_map, (nth_error_In _ _ Hs)|]. apply in_flat_map. eexists. split; [exact Hj|now left]. }
      rewrite Js in Hin. exact Hin. }
    assert (E : exists st b, nth_error (w_gens w) judge = Some (GNumpy NpUniform st b)).
    { assert (Hl : length (firstn 8 (w_gens w)) = 8) by (rewrite G; reflexivity).
      assert (Hjj : nth_error (map (fun g => match g with GNumpy NpUniform _ _ => true | _ => false end) (skipn 8 (w_gens w))) (judge - 8) = Some true).
      { rewrite Gj. clear - K. destruct K as [<-|[<-|[<-|[<-|[<-|[<-|[]]]]]]]; reflexivity. }
      rewrite nth_error_map in Hjj. rewrite <- (firstn_skipn 8 (w_gens w)), nth_error_app2 by (rewrite Hl; clear - K; cbn in K; lia). rewrite Hl.
      destruct (nth_error (skipn 8 (w_gens w)) (judge - 8)) as [g|]; [|discriminate]. cbn in Hjj. destruct g as [| |m st b| | | | | |]; try discriminate. destruct m; try discriminate. eauto. }
    destruct E as (st & b & E). split; [eapply sure_uniform; exact E|]. intros v Hv. inversion Hv; try congruence. eexists. reflexivity.
  - unfold state_in, purchases. destruct (nth_error (w_stories w) 1) as [s|]; [|contradiction]. exists s. split; [reflexivity|]. rewrite Ho. right. now left.
  - intros a s Hs. refine (proj1 (C134_made_with_the_api _ _ _ _ B Hs _ _)).
    + rewrite forallb_forall in Tm. specialize (Tm _ (nth_error_In _ _ Hs)). rewrite forallb_forall in Tm. intros i st r Hin. apply mem_In. exact (Tm _ Hin).
    + rewrite forallb_forall in Tg. specialize (Tg _ (nth_error_In _ _ Hs)). apply Nat.ltb_lt in Tg. destruct (nth_error (w_tgens w) (st_tgen s)) eqn:E; [eauto|]. apply nth_error_None in E. lia.
  - exact Sc.
Qed.

Example C145_example : snd_circus snd_sample shops distro_names dealer_names agent_names /\ snd_ready snd_sample shops distro_names dealer_names agent_names /\
  built stream snd_sample /\ startable disk logs_folder false /\
  Forall (sensible snd_sample) [HExec 2; HClock; HForce 0 [s_ "D1"]; HExec 0; HExec 1; HTransit 1 [s_ "B"] ["on_holiday"%string]].
Proof.
  split; [exact snd_sample_shape|]. split; [exact snd_sample_ready|]. split; [exact snd_sample_built|]. split; [exact logging_startable|].
  assert (L : length (w_stories snd_sample) = 6) by (vm_compute; reflexivity).
  assert (S : forall a, a < 6 -> story_in snd_sample a) by (intros a Ha; exists (story_of snd_sample a); apply story_of_is; rewrite L; exact Ha).
  assert (M : forall a i, a < 6 -> mem i (st_ids (story_of snd_sample a)) = true -> member_of snd_sample a i).
  { intros a i Ha Hm. exists (story_of snd_sample a). split; [apply story_of_is; rewrite L; exact Ha|exact (proj1 (mem_In i (st_ids (story_of snd_sample a))) Hm)]. }
  assert (M1 : mem (s_ "D1") (st_ids (story_of snd_sample 0)) = true) by (vm_compute; reflexivity).
  assert (MB : mem (s_ "B") (st_ids (story_of snd_sample 1)) = true) by (vm_compute; reflexivity).
  rewrite !Forall_cons_iff. cbn [sensible]. split; [apply S; lia|]. split; [exact I|]. split; [|split; [apply S; lia|split; [apply S; lia|split; [|constructor]]]].
  - split; [apply S; lia|]. intros i [<-|[]]. apply M; [lia|exact M1].
  - split; [apply S; lia|]. split; [reflexivity|]. split; [intros i [<-|[]]; apply M; [lia|exact MB]|]. intros st [<-|[]]. exact (ready_holiday _ _ _ _ _ snd_sample_ready).
Qed.

(** *** The condition on distributors is needed: a dealer who buys from somebody else makes the run raise, as
    soon as there is something to buy. *)
Definition strange : world :=
  calls people (flat_map (fun c => match c with CRelAdd 4 f _ => [CRelAdd 4 f [s_ "D1"; s_ "D9"]; CRelAdd 0 [s_ "D9"; s_ "D9"] [s_ "S8"; s_ "S9"]] | _ => [c] end) shop_calls).
Lemma strange_shape : snd_circus strange shops distro_names dealer_names agent_names.
Proof.
  assert (Bt : built stream strange) by (unfold strange, people; apply built_calls; [apply built_calls; [apply built_new|]|]; repeat constructor; intros l; apply Permutation_refl).
  assert (L : length (w_stories strange) = 6) by (vm_compute; reflexivity).
  assert (S : forall a, a < 6 -> nth_error (w_stories strange) a = Some (story_of strange a)) by (intros a H; apply story_of_is; rewrite L; exact H).
  constructor.
  - exact L.
  - exists (story_of strange 0). split; [apply S; lia|]. split; [vm_compute; reflexivity|]. split; [vm_compute; reflexivity|]. exists 8. reflexivity.
  - exists (story_of strange 1). split; [apply S; lia|]. split; [vm_compute; reflexivity|]. split; [vm_compute; reflexivity|]. exists 9. reflexivity.
  - exists (story_of strange 2). split; [apply S; lia|]. split; [vm_compute; reflexivity|]. split; [vm_compute; reflexivity|]. exists 10. reflexivity.
  - exists (story_of strange 3). split; [apply S; lia|]. split; [vm_compute; reflexivity|]. split; [vm_compute; reflexivity|]. exists 11. reflexivity.
  - exists (story_of strange 4). split; [apply S; lia|]. split; [vm_compute; reflexivity|]. split; [vm_compute; reflexivity|]. exists 12. reflexivity.
  - exists (story_of strange 5). split; [apply S; lia|]. split; [vm_compute; reflexivity|]. split; [vm_compute; reflexivity|]. exists 13. reflexivity.
  - split; [eexists; split; vm_compute; reflexivity|]. split; [eexists; split; vm_compute; reflexivity|]. split; [eexists; split; vm_compute; reflexivity|].
    assert (E : length (w_attrs strange) = 7) by (vm_compute; reflexivity). intros x Hx. rewrite E. destruct Hx as [<-|[<-|[<-|[]]]]; cbn; lia.
  - apply nodupb_NoDup. reflexivity.
  - split; [apply Forall_forall; intros rel Hin; apply In_nth_error in Hin as [r Hr]; exact (built_reachable _ _ _ _ Bt Hr)|]. assert (E : length (w_rels strange) = 5) by (vm_compute; reflexivity). intros r Hr.
    assert (Hl : r < length (w_rels strange)) by (rewrite E; destruct Hr as [<-|[<-|[<-|[]]]]; cbn; lia). apply nth_error_Some in Hl.
    unfold related_to. destruct (nth_error (w_rels strange) r) as [rel|]; [eauto|contradiction].
  - assert (G : nth_error (w_gens strange) 3 = Some (GSeq 4 "SIM_" 3)) by (vm_compute; reflexivity).
    split; [|split].
    + assert (B : forallb (fun r => negb (mem VNA (map snd (pairs_of strange r)))) [0; 1] = true) by (vm_compute; reflexivity). rewrite forallb_forall in B. intros r Hr K. specialize (B r Hr).
      apply mem_In in K. rewrite K in B. discriminate.
    + apply (sure_ids _ _ _ _ _ G).
    + intros K. inversion K; match goal with H : nth_error _ _ = _ |- _ => change (n_sim_ids shops) with 3 in H; rewrite G in H; discriminate H end.
Qed.

Theorem C145_stranger_refuted : exists w c distributors dealers agents i d, built stream w /\ snd_circus w c distributors dealers agents /\
  In i dealers /\ items w (n_distro_of c) i = [d] /\ ~ In d distributors /\ startable disk logs_folder false /\ fst (run (6 * hour) logs_folder false w disk) = Err KeyError.
Proof.
  exists strange, shops, distro_names, dealer_names, agent_names, (s_ "Q"), (s_ "D9").
  split; [unfold strange, people; apply built_calls; [apply built_calls; [apply built_new|]|]; repeat constructor; intros l; apply Permutation_refl|].
  split; [exact strange_shape|]. split; [right; now left|]. split; [vm_compute; reflexivity|]. split; [intros [K|[]]; discriminate K|]. split; [exact logging_startable|]. vm_compute. reflexivity.
Qed.
Print Assumptions C145_stranger_refuted.
