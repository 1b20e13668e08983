(** The stocks of the distributors of tests/scenarios/test_snd.py (C148), and selections with pop when several
    requests name one seller (C47). *)
From Verif Require Import Base BaseFacts Rng Utils Relationship RelationshipFacts SpecRelationship Frame Gens Clock SpecClock Attribute SpecAttribute AttributeFacts World Story Ops Helpers
  Fs Circus SpecStory SpecOps SpecCircus SpecWorld WorldProps SpecPopulation GensKept PopProps SpecLocal CircusProps SpecSupply SpecFs SpecLedger SpecRecords RecordsGens RecordsProps RecordsMore
  SpecNow NowProps SpecSafe SafeRun Samples StorySamples StoryWorld2 StoryForce PropStory PropCircus PropRecords PropOps PropSafe Cdr SpecCdr PropCdr SpecCdrLogs Snd SpecSnd SpecSndReady SndBooks SndTruth SndSafe SpecSndRestock SndRestock
  PropSnd PropHolidays PropSndSafe PropSndRestock RelationshipEach PropRelationship SpecSndRestock SpecSndStock SndStock.
From Coq Require Import Permutation.

(** ** C47, without condition on the requests: with pop, what disappears is what exactly one request of each seller
    was given, among the sellers who gave something. *)
Theorem C47_select_many_pop_each r reqs discard rows r' :
  reachable r -> NoDup (map q_idx reqs) -> select_many r reqs true discard = Ok (rows, r') ->
  exists served removed,
    incl served reqs /\ NoDup (map q_from served) /\ (forall q, In q served -> given_to (q_idx q) rows <> []) /\
    (forall q, In q reqs -> given_to (q_idx q) rows <> [] -> In (q_from q) (map q_from served)) /\
    Permutation (stored r) (stored r' ++ removed) /\
    Permutation (map fst removed) (flat_map (fun q => map (pair (q_from q)) (given_to (q_idx q) rows)) served).
Proof. exact (select_many_pops_each r reqs discard rows r'). Qed.
Print Assumptions C47_select_many_pop_each.

Example C47_each_example : reachable shop /\
  exists rows r', select_many shop [mkReq (s_ "i") (s_ "A") 1; mkReq (s_ "j") (s_ "A") 1; mkReq (s_ "k") (s_ "B") 1] true true = Ok (rows, r') /\
    length (given_to (s_ "i") rows) = 1 /\ length (given_to (s_ "j") rows) = 1 /\ length (stored shop) = length (stored r') + 2.
Proof. split; [exact shop_reachable|]. apply (ok_ex no_rows); [vm_compute; reflexivity|]. split; [vm_compute; reflexivity|]. split; vm_compute; reflexivity. Qed.

(** ** C148.  The stock of a distributor never falls below what it was, plus what it is logged to have restocked,
    minus what dealers are logged to have bought from it; and it never exceeds the first two. *)
Theorem C148_stock_bounds w c distributors dealers agents hs L w' k : snd_circus w c distributors dealers agents -> emits w hs L w' -> k <> VNA ->
  exists bought restocks, bought_from k (records "bulk_purchases" L) = qnat bought /\ restocked k (records "distributor_restock" L) = qnat restocks /\
    length (items w' (n_distro_sims c) k) <= length (items w (n_distro_sims c) k) + restocks <= length (items w' (n_distro_sims c) k) + bought.
Proof.
  intros F He Nk. destruct (shelved_all _ _ _ _ _ F k hs L w' Nk He) as (n & b & r & H1 & H2 & H3 & H4 & _). exists b, r. split; [exact H1|]. split; [exact H2|]. lia.
Qed.
Print Assumptions C148_stock_bounds.

(** ... it is exactly that when at most one dealer may buy from the distributor. *)
Theorem C148_stock_of_one_client w c distributors dealers agents hs L w' k : snd_circus w c distributors dealers agents -> emits w hs L w' -> k <> VNA ->
  NoDup dealers -> one_client w c dealers k ->
  (qnat (length (items w' (n_distro_sims c) k)) + bought_from k (records "bulk_purchases" L) = qnat (length (items w (n_distro_sims c) k)) + restocked k (records "distributor_restock" L))%Qc.
Proof.
  intros F He Nk Nd One. destruct (shelved_all _ _ _ _ _ F k hs L w' Nk He) as (n & b & r & H1 & H2 & H3 & _ & H5). rewrite H1, H2, <- !qnat_add. f_equal. specialize (H5 Nd One). lia.
Qed.
Print Assumptions C148_stock_of_one_client.

(** ... as the log files of a run show. *)
Theorem C148_stock_of_one_client_from_the_files w c distributors dealers agents duration folder del fs w' fs' tr k : snd_circus w c distributors dealers agents -> (0 < Clock.c_step (w_clock w))%Z ->
  startable fs folder del -> run duration folder del w fs = (Ok tt, (w', fs', tr)) -> k <> VNA -> NoDup dealers -> one_client w c dealers k ->
  (qnat (length (items w' (n_distro_sims c) k)) + bought_from k (recorded fs' folder "bulk_purchases") = qnat (length (items w (n_distro_sims c) k)) + restocked k (recorded fs' folder "distributor_restock"))%Qc.
Proof.
  intros F Hc St H Nk Nd One. destruct (run_recorded _ _ _ _ _ _ _ _ H St Hc) as (n & L & _ & He & Er).
  rewrite (Er _ _ (snd_header _ _ _ _ _ F "bulk_purchases" a_bulk_purchase ltac:(cbn; tauto))), (Er _ _ (snd_header _ _ _ _ _ F "distributor_restock" a_restock ltac:(cbn; tauto))).
  exact (C148_stock_of_one_client w c distributors dealers agents _ L w' k F He Nk Nd One).
Qed.
Print Assumptions C148_stock_of_one_client_from_the_files.

(** What is in stock and what is to restock never fall below what they were together; with one client, they remain
    constant. *)
Theorem C148_stock_and_orders w c distributors dealers agents hs L w' k m : snd_circus w c distributors dealers agents -> snd_ready w c distributors dealers agents ->
  Forall (sensible w) hs -> emits w hs L w' -> k <> VNA -> holds w (n_to_restock c) k (vnat m) ->
  exists m', holds w' (n_to_restock c) k (vnat m') /\
    length (items w (n_distro_sims c) k) + m <= length (items w' (n_distro_sims c) k) + m' /\
    (NoDup dealers -> one_client w c dealers k -> length (items w' (n_distro_sims c) k) + m' = length (items w (n_distro_sims c) k) + m).
Proof.
  intros F R Hs He Nk Hm. destruct (C147_never_more_than_bought w c distributors dealers agents hs L w' k (qnat m) F R Hs He Nk Hm) as (m' & E & H'). exists m'. split; [exact H'|].
  destruct (shelved_all _ _ _ _ _ F k hs L w' Nk He) as (n & b & r & H1 & H2 & H3 & H4 & H5). rewrite H1, H2, <- !qnat_add in E. apply qnat_inj in E. split; [lia|]. intros Nd One. specialize (H5 Nd One). lia.
Qed.
Print Assumptions C148_stock_and_orders.

Lemma more_than_sold w1 w2 b r : holds w1 (n_to_restock shops) (s_ "D1") (VNum (qnat 0 + b - r)) -> nth_error (w_attrs w1) 0 = Some [(s_ "D1", vnat 3)] ->
  length (items w1 (n_distro_sims shops) (s_ "D1")) = 2 -> length (items w2 (n_distro_sims shops) (s_ "D1")) = 4 ->
  (qnat (length (items w1 (n_distro_sims shops) (s_ "D1"))) + b <> qnat (length (items w2 (n_distro_sims shops) (s_ "D1"))) + r)%Qc.
Proof.
  intros (t & Et & Hin) C1 C4 C0. rewrite C4, C0. intros E.
  assert (X : nth_error (w_attrs w1) 0 = Some t) by exact Et. rewrite C1 in X. injection X as X. rewrite <- X in Hin. destruct Hin as [Hin|[]].
  assert (Hv : VNum (qnat 3) = VNum (qnat 0 + b - r)%Qc) by exact (f_equal snd Hin). apply VNum_inj in Hv.
  assert (K : qnat 3 = qnat 2); [|apply qnat_inj in K; discriminate].
  assert (K4 : qnat 4 = (qnat 2 + qnat 2)%Qc) by (rewrite <- qnat_add; reflexivity). rewrite K4 in E. assert (K0 : qnat 0 = 0%Qc) by reflexivity. rewrite Hv, K0.
  revert E. generalize (qnat 2). intros z E. transitivity (z + b - r - z)%Qc; [ring|]. rewrite E. ring.
Qed.

(** With two clients the stock is not what the logs say: they are sold SIMs that stay in stock. *)
Theorem C148_two_clients_refuted : exists w c distributors dealers agents hs L w' k, built stream w /\ snd_circus w c distributors dealers agents /\ snd_ready w c distributors dealers agents /\
  NoDup dealers /\ k <> VNA /\ emits w hs L w' /\
  (qnat (length (items w' (n_distro_sims c) k)) + bought_from k (records "bulk_purchases" L) <> qnat (length (items w (n_distro_sims c) k)) + restocked k (records "distributor_restock" L))%Qc.
Proof.
  assert (R : fst (run (3 * hour) logs_folder false snd_sample disk) = Ok tt) by (vm_compute; reflexivity). destruct (sample_emits 3 R) as (hs & L & He). clear R.
  exists snd_sample, shops, distro_names, dealer_names, agent_names, hs, L, (after_hours 3), (s_ "D1"). split; [exact snd_sample_built|]. split; [exact snd_sample_shape|]. split; [exact snd_sample_ready|].
  split; [apply nodupb_NoDup; reflexivity|]. split; [discriminate|]. split; [exact He|].
  assert (A0 : nth_error (w_attrs snd_sample) 0 = Some [(s_ "D1", vnat 0)]) by (vm_compute; reflexivity).
  assert (H0 : holds snd_sample (n_to_restock shops) (s_ "D1") (VNum (qnat 0))) by (eexists; split; [exact A0|left; reflexivity]).
  assert (Nk : s_ "D1" <> VNA) by discriminate.
  pose proof (C147_counter_from_the_records snd_sample shops distro_names dealer_names agent_names hs L (after_hours 3) (s_ "D1") (qnat 0) snd_sample_shape snd_sample_ready He Nk H0) as H. clear He H0 A0.
  assert (C1 : nth_error (w_attrs (after_hours 3)) 0 = Some [(s_ "D1", vnat 3)]) by (vm_compute; reflexivity).
  assert (C4 : length (items (after_hours 3) (n_distro_sims shops) (s_ "D1")) = 2) by (vm_compute; reflexivity).
  assert (C0 : length (items snd_sample (n_distro_sims shops) (s_ "D1")) = 4) by (vm_compute; reflexivity).
  revert H C1 C4 C0. generalize (bought_from (s_ "D1") (records "bulk_purchases" L)) (restocked (s_ "D1") (records "distributor_restock" L)). intros b r. generalize (after_hours 3). generalize snd_sample. intros w2 w1 H C1 C4 C0. exact (more_than_sold w1 w2 b r H C1 C4 C0).
Qed.
Print Assumptions C148_two_clients_refuted.

(** *** A circus in which one dealer buys from D1, the other from nobody. *)
Definition lone : world := calls people (map (fun c => match c with CRelAdd 4 f _ => CRelAdd 4 [s_ "P"] [s_ "D1"] | _ => c end) shop_calls).
Lemma lone_built : built stream lone.
Proof. unfold lone, people. apply built_calls; [apply built_calls; [apply built_new|]|]; repeat constructor; intros l; apply Permutation_refl. Qed.
Lemma lone_shape : snd_circus lone shops distro_names dealer_names agent_names.
Proof.
  assert (L : length (w_stories lone) = 6) by (vm_compute; reflexivity).
  assert (S : forall a, a < 6 -> nth_error (w_stories lone) a = Some (story_of lone a)) by (intros a H; apply story_of_is; rewrite L; exact H).
  constructor.
  - exact L.
  - exists (story_of lone 0). split; [apply S; lia|]. split; [vm_compute; reflexivity|]. split; [vm_compute; reflexivity|]. exists 8. reflexivity.
  - exists (story_of lone 1). split; [apply S; lia|]. split; [vm_compute; reflexivity|]. split; [vm_compute; reflexivity|]. exists 9. reflexivity.
  - exists (story_of lone 2). split; [apply S; lia|]. split; [vm_compute; reflexivity|]. split; [vm_compute; reflexivity|]. exists 10. reflexivity.
  - exists (story_of lone 3). split; [apply S; lia|]. split; [vm_compute; reflexivity|]. split; [vm_compute; reflexivity|]. exists 11. reflexivity.
  - exists (story_of lone 4). split; [apply S; lia|]. split; [vm_compute; reflexivity|]. split; [vm_compute; reflexivity|]. exists 12. reflexivity.
  - exists (story_of lone 5). split; [apply S; lia|]. split; [vm_compute; reflexivity|]. split; [vm_compute; reflexivity|]. exists 13. reflexivity.
  - split; [eexists; split; vm_compute; reflexivity|]. split; [eexists; split; vm_compute; reflexivity|]. split; [eexists; split; vm_compute; reflexivity|].
    assert (E : length (w_attrs lone) = 7) by (vm_compute; reflexivity). intros x Hx. rewrite E. destruct Hx as [<-|[<-|[<-|[]]]]; cbn; lia.
  - apply nodupb_NoDup. reflexivity.
  - split; [apply Forall_forall; intros rel Hin; apply In_nth_error in Hin as [r Hr]; exact (built_reachable _ _ _ _ lone_built Hr)|]. assert (E : length (w_rels lone) = 5) by (vm_compute; reflexivity). intros r Hr.
    assert (Hl : r < length (w_rels lone)) by (rewrite E; destruct Hr as [<-|[<-|[<-|[]]]]; cbn; lia). apply nth_error_Some in Hl.
    unfold related_to. destruct (nth_error (w_rels lone) r) as [rel|]; [eauto|contradiction].
  - assert (G : nth_error (w_gens lone) 3 = Some (GSeq 4 "SIM_" 3)) by (vm_compute; reflexivity).
    split; [|split].
    + assert (B : forallb (fun r => negb (mem VNA (map snd (pairs_of lone r)))) [0; 1] = true) by (vm_compute; reflexivity). rewrite forallb_forall in B. intros r Hr K. specialize (B r Hr).
      apply mem_In in K. rewrite K in B. discriminate.
    + apply (sure_ids _ _ _ _ _ G).
    + intros K. inversion K; match goal with H : nth_error _ _ = _ |- _ => change (n_sim_ids shops) with 3 in H; rewrite G in H; discriminate H end.
Qed.
Lemma lone_Tm : forallb (fun s : story => forallb (fun x : val * (string * option Z) => mem (fst (snd x)) (st_states s)) (st_timer s)) (w_stories lone) = true.
Proof. vm_compute. reflexivity. Qed.
Lemma lone_Tg : forallb (fun s => st_tgen s <? length (w_tgens lone)) (w_stories lone) = true.
Proof. vm_compute. reflexivity. Qed.
Lemma lone_Sc : (second <= Clock.c_step (w_clock lone))%Z.
Proof. vm_compute. discriminate. Qed.
Lemma lone_ready : snd_ready lone shops distro_names dealer_names agent_names.
Proof.
  assert (P4 : pairs_of lone 4 = [(s_ "P", s_ "D1")]) by (vm_compute; reflexivity).
  assert (A0 : nth_error (w_attrs lone) 0 = Some [(s_ "D1", vnat 0)]) by (vm_compute; reflexivity).
  assert (A1 : nth_error (w_attrs lone) 1 = Some [(s_ "P", vnat 1); (s_ "Q", vnat 2)]) by (vm_compute; reflexivity).
  assert (A2 : nth_error (w_attrs lone) 2 = Some [(s_ "A", s_ "Ann"); (s_ "B", s_ "Bob"); (s_ "C", s_ "Cid")]) by (vm_compute; reflexivity).
  assert (A3 : skipn 3 (w_attrs lone) = [[]; []; []; []]) by (vm_compute; reflexivity).
  assert (Po : match nth_error (w_pops lone) 3 with Some po => p_attrs po = [("DATE", 3); ("TEXT", 4); ("AGENT_ID", 5); ("AGENT_NAME", 6)]%string | None => False end) by (vm_compute; reflexivity).
  assert (G : firstn 8 (w_gens lone) = [GConst (vz 1); GConst (vz 0); GConst (vz 1); GSeq 4 "SIM_" 3; GSeq 0 "REVIEW_ID" 1; GConst (s_ "Good."); GConst (s_ "going"); GConst (s_ "returning")]) by (vm_compute; reflexivity).
  assert (R1 : match nth_error (w_rels lone) 1 with Some rel => stored rel = map (fun x => (x, 1%Q)) [(s_ "P", s_ "P1"); (s_ "broke", s_ "B0"); (s_ "broke", s_ "B1"); (s_ "broke", s_ "B2")] | None => False end) by (vm_compute; reflexivity).
  assert (R3 : match nth_error (w_rels lone) 3 with Some rel => stored rel = [(s_ "A", s_ "P", 1%Q); (s_ "A", s_ "broke", 4%Q); (s_ "B", s_ "Q", 1%Q); (s_ "B", s_ "broke", 4%Q); (s_ "C", s_ "broke", 4%Q)] | None => False end) by (vm_compute; reflexivity).
  assert (R4 : match nth_error (w_rels lone) 4 with Some rel => stored rel = map (fun x => (x, 1%Q)) [(s_ "P", s_ "D1")] | None => False end) by (vm_compute; reflexivity).
  assert (Js : map (fun s => flat_map (fun o => match o with OpBack _ j => [j] | _ => [] end) (st_ops s)) (w_stories lone) = [[8]; [9]; [10]; [11]; [12]; [13]]) by (vm_compute; reflexivity).
  assert (Gj : map (fun g => match g with GNumpy NpUniform _ _ => true | _ => false end) (skipn 8 (w_gens lone)) = repeat true 6) by (vm_compute; reflexivity).
  assert (Ho : match nth_error (w_stories lone) 1 with Some s => st_states s = ["default"; "on_holiday"]%string | None => False end) by (vm_compute; reflexivity).
  pose proof lone_Tm as Tm. pose proof lone_Tg as Tg. pose proof lone_Sc as Sc. pose proof lone_built as B.
  revert P4 A0 A1 A2 A3 Po G R1 R3 R4 Js Gj Ho Tm Tg Sc B. generalize lone as w. intros w P4 A0 A1 A2 A3 Po G R1 R3 R4 Js Gj Ho Tm Tg Sc B.
  assert (Gen : forall i g, i < 8 -> nth_error (firstn 8 (w_gens w)) i = Some g -> nth_error (w_gens w) i = Some g).
  { intros i g Hi E. rewrite <- (firstn_skipn 8 (w_gens w)). rewrite nth_error_app1; [exact E|]. apply nth_error_Some. congruence. }
  rewrite G in Gen.
  constructor; cbn [shops n_to_restock n_bulk_size n_agent_name n_reviews n_distro_of n_dealers_of n_dealer_sims n_review_ids n_texts n_going n_returning].
  - apply (table_filled _ _ _ _ _ A0); [reflexivity|reflexivity|]. intros kv [<-|[]]. eexists. reflexivity.
  - apply (table_filled _ _ _ _ _ A1); [reflexivity|reflexivity|]. intros kv [<-|[<-|[]]]; eexists; reflexivity.
  - apply (table_filled _ _ _ _ _ A2); [reflexivity|reflexivity|]. trivial.
  - destruct (nth_error (w_pops w) 3) as [po|]; [|contradiction]. exists po. split; [reflexivity|]. rewrite Po. cbn [map fst]. split; [reflexivity|].
    assert (At : forall x, x < 4 -> nth_error (w_attrs w) (3 + x) = Some []).
    { intros x Hx. assert (Hl : length (firstn 3 (w_attrs w)) = 3).
      { apply firstn_length_le. assert (K : length (skipn 3 (w_attrs w)) = 4) by (rewrite A3; reflexivity). rewrite skipn_length in K. lia. }
      rewrite <- (firstn_skipn 3 (w_attrs w)), nth_error_app2 by lia. rewrite Hl, A3. replace (3 + x - 3) with x by lia. destruct x as [|[|[|[|x]]]]; try reflexivity. lia. }
    intros name x [H|[H|[H|[H|[]]]]]; injection H as <- <-; (split; [exists []; split; [|constructor]|split; discriminate]).
    + exact (At 0 ltac:(lia)).
    + exact (At 1 ltac:(lia)).
    + exact (At 2 ltac:(lia)).
    + exact (At 3 ltac:(lia)).
  - intros i v H. apply in_items in H. rewrite P4 in H. clear - H. cases H; cbn; tauto.
  - intros l H. cbn in H. clear - H. intuition discriminate.
  - split; [|exact (ones_choosable _ _ _ R4)]. apply (weights_choosable _ _ _ R3). intros f t q H. clear - H. cbn in H. repeat (destruct H as [H|H]; [injection H as <- <- <-; reflexivity|]). contradiction.
  - destruct (nth_error (w_rels w) 1) as [rel|]; [|contradiction]. exists rel. split; [reflexivity|]. rewrite R1. intros f t q H. apply in_map_iff in H as (x & [= -> <-] & _). reflexivity.
  - split; [eapply sure_ids; apply Gen; [lia|reflexivity]|]. split; [eapply sure_const; apply Gen; [lia|reflexivity]|]. split; eapply sure_const; (apply Gen; [lia|reflexivity]).
  - intros a s judge Hs Hj.
    assert (K : In judge [8; 9; 10; 11; 12; 13]).
    { assert (Hin : In judge (concat (map (fun s => flat_map (fun o => match o with OpBack _ j => [j] | _ => [] end) (st_ops s)) (w_stories w)))).
      { apply in_concat. eexists. split; [apply in_map, (nth_error_In _ _ Hs)|]. apply in_flat_map. eexists. split; [exact Hj|now left]. }
      rewrite Js in Hin. exact Hin. }
    assert (E : exists st b, nth_error (w_gens w) judge = Some (GNumpy NpUniform st b)).
    { assert (Hl : length (firstn 8 (w_gens w)) = 8) by (rewrite G; reflexivity).
      assert (Hjj : nth_error (map (fun g => match g with GNumpy NpUniform _ _ => true | _ => false end) (skipn 8 (w_gens w))) (judge - 8) = Some true).
      { rewrite Gj. clear - K. destruct K as [<-|[<-|[<-|[<-|[<-|[<-|[]]]]]]]; reflexivity. }
      rewrite nth_error_map in Hjj. rewrite <- (firstn_skipn 8 (w_gens w)), nth_error_app2 by (rewrite Hl; clear - K; cbn in K; lia). rewrite Hl.
      destruct (nth_error (skipn 8 (w_gens w)) (judge - 8)) as [g|]; [|discriminate]. cbn in Hjj. destruct g as [| |m st b| | | | | |]; try discriminate. destruct m; try discriminate. eauto. }
    destruct E as (st & b & E). split; [eapply sure_uniform; exact E|]. intros v Hv. inversion Hv; try congruence. eexists. reflexivity.
  - unfold state_in, purchases. destruct (nth_error (w_stories w) 1) as [s|]; [|contradiction]. exists s. split; [reflexivity|]. rewrite Ho. right. now left.
  - intros a s Hs. refine (proj1 (C134_made_with_the_api _ _ _ _ B Hs _ _)).
    + rewrite forallb_forall in Tm. specialize (Tm _ (nth_error_In _ _ Hs)). rewrite forallb_forall in Tm. intros i st r Hin. apply mem_In. exact (Tm _ Hin).
    + rewrite forallb_forall in Tg. specialize (Tg _ (nth_error_In _ _ Hs)). apply Nat.ltb_lt in Tg. destruct (nth_error (w_tgens w) (st_tgen s)) eqn:E; [eauto|]. apply nth_error_None in E. lia.
  - exact Sc.
Qed.

Example C148_example : snd_circus lone shops distro_names dealer_names agent_names /\ snd_ready lone shops distro_names dealer_names agent_names /\ startable disk logs_folder false /\
  NoDup dealer_names /\ one_client lone shops dealer_names (s_ "D1") /\ holds lone (n_to_restock shops) (s_ "D1") (vnat 0) /\ length (items lone (n_distro_sims shops) (s_ "D1")) = 4 /\
  let r := run (3 * hour) logs_folder false lone disk in let w' := fst (fst (snd r)) in
  fst r = Ok tt /\ length (items w' (n_distro_sims shops) (s_ "D1")) = 3 /\ holds w' (n_to_restock shops) (s_ "D1") (vnat 1) /\
  bought_from (s_ "D1") (recorded (snd (fst (snd r))) logs_folder "bulk_purchases") <> 0%Qc.
Proof.
  split; [exact lone_shape|]. split; [exact lone_ready|]. split; [exact logging_startable|]. split; [apply nodupb_NoDup; reflexivity|]. split.
  { assert (P4 : pairs_of lone 4 = [(s_ "P", s_ "D1")]) by (vm_compute; reflexivity). intros d d' _ _ H H'. unfold items in *. change (n_distro_of shops) with 4 in *. rewrite P4 in *. unfold about in *. cbn [filter fst map] in *.
    change val_eqb with (@keqb val _) in *. destruct (keqb_spec (s_ "P") d) as [<-|]; [|destruct H]. destruct (keqb_spec (s_ "P") d') as [<-|]; [reflexivity|destruct H']. }
  assert (A0 : nth_error (w_attrs lone) 0 = Some [(s_ "D1", vnat 0)]) by (vm_compute; reflexivity).
  split; [eexists; split; [exact A0|now left]|]. split; [vm_compute; reflexivity|]. cbv zeta.
  assert (R : fst (run (3 * hour) logs_folder false lone disk) = Ok tt) by (vm_compute; reflexivity).
  assert (C1 : nth_error (w_attrs (fst (fst (snd (run (3 * hour) logs_folder false lone disk))))) 0 = Some [(s_ "D1", vnat 1)]) by (vm_compute; reflexivity).
  split; [exact R|]. split; [vm_compute; reflexivity|]. split; [eexists; split; [exact C1|now left]|]. vm_compute. discriminate.
Qed.
