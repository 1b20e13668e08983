(** Items in stock are conserved and never duplicated (C120, C121). *)
From Verif Require Import Base BaseFacts Rng Utils Relationship RelationshipFacts SpecRelationship Frame Gens Clock Attribute World Story Ops Helpers
  Fs Circus SpecStory SpecOps SpecCircus SpecWorld WorldProps SpecLocal CircusProps SpecSupply SupplyProps Samples StorySamples.
From Coq Require Import Permutation.

(** ** C120.  In a circus whose stories only make items with one generator, buy them one-to-one and
    store what they made or bought, and leave the stocks alone otherwise, whatever happens: the stocks
    hold together what they held before plus what the generator gave meanwhile, no more, no less. *)
Theorem C120_items_conserved w S g l w' : supply_chain true w S g -> history w l w' ->
  exists sizes made, drawn w w' g sizes made /\ Permutation (held S w') (held S w ++ made).
Proof. intros Sc H. destruct (supply_conserved w S g l w' Sc H) as (sizes & made & D & P & _). eauto. Qed.
Print Assumptions C120_items_conserved.

Theorem C120_items_conserved_by_run duration folder del w fs w' fs' tr S g :
  run duration folder del w fs = (Ok tt, (w', fs', tr)) -> folder <> [] -> (0 < c_step (w_clock w))%Z -> supply_chain true w S g ->
  exists sizes made, drawn w w' g sizes made /\ Permutation (held S w') (held S w ++ made).
Proof.
  intros H Hf Hs Sc. destruct (run_history _ _ _ _ _ _ _ _ H Hf Hs) as (n & _ & Hh & _). exact (C120_items_conserved _ _ _ _ _ Sc Hh).
Qed.
Print Assumptions C120_items_conserved_by_run.

(** Also when stories raise in the middle, or throw away what they carry: nothing is held that was not
    held before or made meanwhile, each item as often. *)
Theorem C120_nothing_from_nowhere strict w S g l : supply_chain strict w S g ->
  exists sizes made lost, drawn w (after w l) g sizes made /\ Permutation (held S w ++ made) (held S (after w l) ++ lost).
Proof. intros Sc. destruct (supply_nowhere_else strict w S g l Sc) as (sizes & made & lost & D & P & _). eauto. Qed.
Print Assumptions C120_nothing_from_nowhere.

(** ** C121.  When the items are identifiers given by the generator, no item is ever held twice, by
    one member or by two, in one stock or in two: whatever happens, also when stories raise.  Provided
    the sizes asked from the generator are not negative, which the operations with a fixed size
    guarantee. *)
Theorem C121_held_once strict w S g l G0 : supply_chain strict w S g -> fixed_sizes w -> all_made w S g G0 -> new_ids G0 ->
  NoDup (held S (after w l)).
Proof.
  intros Sc Fx Am Nw. destruct (supply_unique strict w S g l G0 Sc Am Nw) as [(? & ? & _ & _ & K)|[N _]]; [contradiction|exact N].
Qed.
Print Assumptions C121_held_once.

Theorem C121_held_once_partial strict w S g l G0 : supply_chain strict w S g -> all_made w S g G0 -> new_ids G0 ->
  ~ NoDup (held S (after w l)) -> exists sizes made n, drawn w (after w l) g sizes made /\ In n sizes /\ (n < 0)%Z.
Proof.
  intros Sc Am Nw K. destruct (supply_unique strict w S g l G0 Sc Am Nw) as [(sizes & made & D & Z & _)|[N _]]; [|contradiction].
  exists sizes, made. assert (Exists (fun n => ~ (0 <= n)%Z) sizes) as E by (apply neg_Forall_Exists_neg; [exact (Z_le_dec 0)|exact Z]).
  apply Exists_exists in E as (n & Hn & E). exists n. split; [exact D|]. split; [exact Hn|lia].
Qed.
Print Assumptions C121_held_once_partial.

(** *** Shops that restock and customers who buy, after examples/tutorial/example2.py *)
Definition restock_volume : list op :=
  [OpTimestamp "TIME" true (fun _ => s_ "t"); OpGenerate 3 "VOLUME" None; OpGenerateDep 0 "NEW" "VOLUME";
   OpRelAddGrouped 0 "POS_ID" "NEW"; OpFieldLogger "restock" ["POS_ID"; "VOLUME"]%string []].
Definition restock_quantity : list op :=
  [OpGenerate 3 "VOLUME" None; OpGenerate 2 "NEW" (Some "VOLUME"%string); OpRelAddGrouped 0 "POS_ID" "NEW";
   OpFieldLogger "restock" ["POS_ID"; "VOLUME"]%string []].
Definition purchase : list op :=
  [OpSelectOne 2 "CUST_ID" "POS_ID" false false false None; OpSelectOne 0 "POS_ID" "ITEM" true true true None;
   OpRelAdd 1 "CUST_ID" "ITEM"; OpFieldLogger "purchases" [] []].
(** The same with the out-of-stock rows kept, tested and dropped, as in tests/scenarios/test_snd.py. *)
Definition careful_purchase : list op :=
  [OpSelectOne 2 "CUST_ID" "POS_ID" false false false None; OpSelectOne 0 "POS_ID" "ITEM" true true false None;
   OpApply ["ITEM"]%string ["FAILED"]%string (series_f isnull); OpFieldLogger "attempts" ["CUST_ID"; "FAILED"]%string [];
   OpDropRow "FAILED"; OpRelAdd 1 "CUST_ID" "ITEM"].
Definition bulk_purchase : list op :=
  [OpSelectOne 2 "CUST_ID" "POS_ID" false false false None; OpGenerate 0 "HOW_MANY" None;
   OpSelectMany 0 "POS_ID" "ITEMS" "HOW_MANY" true false; OpRelAddGrouped 1 "CUST_ID" "ITEMS"].

Definition shopping (volume : Z) (restock purchases : list op) : world :=
  calls circus0
    [CNewGen (GConst (vz 1)); CNewGen (GConst (vz 0)); CNewGen (GSeq 0 "ITEM_" 2); CNewGen (GConst (vz volume));
     CNewDepGen (DBulk 2); CNewTimer (TConst 0) false; CNewTimer (TConst 0) false;
     CPopulation "point_of_sale" None None (Some [s_ "P"; s_ "Q"]);
     CPopulation "customer" None None (Some [s_ "A"; s_ "B"; s_ "C"]);
     CStock 0 "items" 2 1; CRelationship 1 "my_items" (Some 6%N); CRelationship 1 "POS" (Some 7%N);
     CRelAdd 2 [s_ "A"; s_ "B"; s_ "C"] [s_ "P"; s_ "P"; s_ "Q"];
     CStory keep_order "restock" 0 "POS_ID" (0, 1) None 0 true;
     CStory keep_order "purchase" 1 "CUST_ID" (0, 1) None 1 true;
     CSetOperations 0 restock; CSetOperations 1 purchases].
Lemma shopping_built v r p : built stream (shopping v r p).
Proof. apply built_calls; [apply built_new|]. repeat constructor; intros l; apply Permutation_refl. Qed.

Lemma shopping_stories v r p :
  map (fun s => (st_field s, st_ops s)) (w_stories (shopping v r p)) =
  [("POS_ID"%string, r ++ [OpBack 0 4]); ("CUST_ID"%string, p ++ [OpBack 1 5])].
Proof. vm_compute. reflexivity. Qed.
Lemma shopping_stock v r p : Permutation (held [0; 1] (shopping v r p)) [s_ "ITEM_00"; s_ "ITEM_01"].
Proof. vm_compute. repeat constructor. Qed.
Lemma shopping_items v r p : nth_error (w_gens (shopping v r p)) 2 = Some (GSeq 2 "ITEM_" 2).
Proof. vm_compute. reflexivity. Qed.
Definition simple_gens (w : world) : Prop := forall i p e, nth_error (w_gens w) i <> Some (GMap p e) /\ forall q, nth_error (w_gens w) i <> Some (GBulk p q).
Lemma shopping_gens v r p : simple_gens (shopping v r p).
Proof.
  assert (E : forallb (fun g => match g with GMap _ _ | GBulk _ _ => false | _ => true end) (w_gens (shopping v r p)) = true) by (vm_compute; reflexivity).
  intros i q e. split; [intros H|intros k H]; apply nth_error_In in H; apply (proj1 (forallb_forall _ _) E) in H; discriminate.
Qed.
Lemma shopping_dgens v r p : w_dgens (shopping v r p) = [DBulk 2].
Proof. vm_compute. reflexivity. Qed.
Lemma shopping_rels v r p : length (w_rels (shopping v r p)) = 3.
Proof. vm_compute. reflexivity. Qed.
Lemma shopping_stocked v r p : stocked (shopping v r p) [0; 1] 2.
Proof.
  split; [repeat constructor; cbn; intuition discriminate|]. split; [|split].
  - intros i Hi. destruct (nth_error (w_rels (shopping v r p)) i) as [rel|] eqn:E.
    + exists rel. split; [reflexivity|]. exact (built_reachable _ _ _ _ (shopping_built v r p) E).
    + apply nth_error_None in E. rewrite shopping_rels in E. cbn in Hi. lia.
  - intros K. apply (Permutation_in _ (shopping_stock v r p)) in K. cbn in K. intuition discriminate.
  - rewrite shopping_items. eexists. split; [reflexivity|]. left. eauto.
Qed.
Lemma shopping_made v r p : all_made (shopping v r p) [0; 1] 2 (GSeq 0 "ITEM_" 2).
Proof.
  split.
  - apply (Permutation_NoDup (Permutation_sym (shopping_stock v r p))). repeat constructor; cbn; intuition discriminate.
  - exists [2]%Z, [[s_ "ITEM_00"; s_ "ITEM_01"]], (GSeq 2 "ITEM_" 2). rewrite shopping_items. split; [reflexivity|]. split; [vm_compute; reflexivity|].
    split; [repeat constructor; lia|]. intros x Hx. exact (Permutation_in _ (shopping_stock v r p) Hx).
Qed.

Lemma shopping_supply strict v r p : (forall w, simple_gens w -> w_dgens w = [DBulk 2] ->
    moves w [0; 1] 2 strict ["POS_ID"%string] Nothing (r ++ [OpBack 0 4]) /\ moves w [0; 1] 2 strict ["CUST_ID"%string] Nothing (p ++ [OpBack 1 5])) ->
  supply_chain strict (shopping v r p) [0; 1] 2.
Proof.
  intros H. specialize (H (shopping v r p) (shopping_gens v r p) (shopping_dgens v r p)) as [H1 H2]. split; [apply shopping_stocked|].
  intros a s Hs. pose proof (shopping_stories v r p) as E. apply (f_equal (fun l => nth_error l a)) in E. rewrite nth_error_map, Hs in E. cbn in E.
  destruct a as [|[|a]]; cbn in E; [injection E as -> ->; exact H1|injection E as -> ->; exact H2|]. now destruct a.
Qed.

Ltac absent := cbn; intuition (subst; discriminate).
Ltac off := split; [intros r Hr; cbn [changes]; cbn in Hr; intuition (try discriminate; subst; try discriminate)|cbn [changes]; intuition (try discriminate)].
Lemma simple_apart w i j : simple_gens w -> i <> j -> ~ generator_of w i (OGenerator j).
Proof.
  intros E Ni (k & K & H). injection K as <-. inversion H; subst; try congruence; unfold simple_gens in E; exfalso.
  - eapply (proj1 (E _ _ _)); eassumption.
  - eapply (proj2 (E _ _ (MapElem (fun v => Ok v)))); eassumption.
  - eapply (proj2 (E _ _ (MapElem (fun v => Ok v)))); eassumption.
Qed.
Lemma volume_off w i n : simple_gens w -> i <> 2 -> hands_off w [0; 1] 2 (OpGenerate i n None).
Proof. intros E Ni. split; [intros r _ (j & K & _); discriminate|]. now apply simple_apart. Qed.
Lemma back_off w a i : simple_gens w -> i <> 2 -> hands_off w [0; 1] 2 (OpBack a i).
Proof. intros E Ni. split; [intros r _ [K|(j & K & _)]; discriminate|]. intros [K|K]; [discriminate|]. revert K. now apply simple_apart. Qed.
Ltac back := eapply moves_on; [apply (carry_on _ _ _ _ _ _ _ []); [apply back_off; [assumption|lia]|reflexivity|constructor|cbn; tauto|auto]|].
Ltac on new := apply (carry_on _ _ _ _ _ _ _ new); [off|reflexivity|repeat constructor; absent|absent|auto].
Lemma restock_volume_moves w : simple_gens w -> w_dgens w = [DBulk 2] ->
  moves w [0; 1] 2 true ["POS_ID"%string] Nothing (restock_volume ++ [OpBack 0 4]).
Proof.
  intros E1 E2. eapply moves_on; [on ["TIME"%string]|].
  eapply moves_on; [apply (carry_on _ _ _ _ _ _ _ ["VOLUME"%string]); [apply volume_off; [assumption|lia]|reflexivity|repeat constructor; absent|absent|auto]|].
  eapply moves_on; [apply make_bulks; [now rewrite E2|absent|auto]|].
  eapply moves_on; [apply store_many; cbn; auto|]. eapply moves_on; [on (@nil string)|]. back. apply arrived. auto.
Qed.
Lemma restock_quantity_moves w : simple_gens w ->
  moves w [0; 1] 2 true ["POS_ID"%string] Nothing (restock_quantity ++ [OpBack 0 4]).
Proof.
  intros E1.
  eapply moves_on; [apply (carry_on _ _ _ _ _ _ _ ["VOLUME"%string]); [apply volume_off; [assumption|lia]|reflexivity|repeat constructor; absent|absent|auto]|].
  eapply moves_on; [apply make_lists; [absent|auto]|].
  eapply moves_on; [apply store_many; cbn; auto|]. eapply moves_on; [on (@nil string)|]. back. apply arrived. auto.
Qed.
Lemma purchase_moves w : simple_gens w -> moves w [0; 1] 2 true ["CUST_ID"%string] Nothing (purchase ++ [OpBack 1 5]).
Proof.
  intros E. eapply moves_on; [on ["POS_ID"%string]|]. eapply moves_on; [apply (buy _ _ _ _ _ _ _ _ _ true); [cbn; auto|absent|auto]|].
  eapply moves_on; [apply store_one; cbn; auto|]. eapply moves_on; [on (@nil string)|]. back. apply arrived. auto.
Qed.
Lemma careful_moves w : simple_gens w -> moves w [0; 1] 2 true ["CUST_ID"%string] Nothing (careful_purchase ++ [OpBack 1 5]).
Proof.
  intros E. eapply moves_on; [on ["POS_ID"%string]|]. eapply moves_on; [apply (buy _ _ _ _ _ _ _ _ _ false); [cbn; auto|absent|auto]|].
  eapply moves_on; [apply check_missing; absent|]. eapply moves_on; [on (@nil string)|]. eapply moves_on; [apply drop_missing|].
  eapply moves_on; [apply store_one; cbn; auto|]. back. apply arrived. auto.
Qed.

Definition two_days : list happening := [HExec 0; HExec 1; HClock; HExec 0; HExec 1; HClock].
Example C120_example : let w := shopping 2 restock_volume purchase in
  supply_chain true w [0; 1] 2 /\ history w two_days (after w two_days) /\
  length (held [0] w) = 2 /\ held [1] w = [] /\
  (exists made, drawn w (after w two_days) 2 [2; 2; 2; 2]%Z made /\ length made = 8) /\
  length (held [0] (after w two_days)) = 4 /\ length (held [1] (after w two_days)) = 6.
Proof.
  cbv zeta. split; [apply shopping_supply; intros w E1 E2; split; [now apply restock_volume_moves|now apply purchase_moves]|].
  split; [apply all_ok_history; vm_compute; reflexivity|].
  split; [vm_compute; reflexivity|]. split; [vm_compute; reflexivity|].
  split; [|split; vm_compute; reflexivity]. eexists. split.
  - eexists (GSeq 2 "ITEM_" 2), (GSeq 10 "ITEM_" 2), _.
    split; [vm_compute; reflexivity|]. split; [vm_compute; reflexivity|]. split; [vm_compute; reflexivity|reflexivity].
  - vm_compute. reflexivity.
Qed.

Lemma shopping_fixed v p : (forall o, In o p -> ~ exists i n q, o = OpGenerate i n q) -> (forall o, In o p -> ~ exists i n q, o = OpGenerateDep i n q) ->
  fixed_sizes (shopping v restock_quantity p).
Proof.
  intros P1 P2 a s o Hs Ho Hd. pose proof (shopping_stories v restock_quantity p) as E. apply (f_equal (fun l => nth_error l a)) in E. rewrite nth_error_map, Hs in E. cbn in E.
  assert (D : forall i n q, o = OpGenerate i n q -> False).
  { intros i n q ->. destruct Hd as (x & e & K). apply (proj2 (shopping_gens v restock_quantity p i x (MapElem (fun v => Ok v))) e K). }
  destruct a as [|[|a]]; cbn in E.
  - injection E as _ E. rewrite E in Ho. cbn in Ho.
    repeat (destruct Ho as [<-|Ho]; [now (eapply D; reflexivity) || contradiction|]). contradiction.
  - injection E as _ E. rewrite E in Ho. apply in_app_or in Ho as [Ho|[<-|[]]]; [|contradiction].
    destruct o; try contradiction; [apply (P1 _ Ho)|apply (P2 _ Ho)]; eauto.
  - destruct a; discriminate.
Qed.

Example C121_example : let w := shopping 1 restock_quantity careful_purchase in
  supply_chain true w [0; 1] 2 /\ fixed_sizes w /\ all_made w [0; 1] 2 (GSeq 0 "ITEM_" 2) /\ new_ids (GSeq 0 "ITEM_" 2) /\
  history w two_days (after w two_days) /\ length (held [0] (after w two_days)) = 2 /\ length (held [1] (after w two_days)) = 4.
Proof.
  cbv zeta. split; [apply shopping_supply; intros w E1 E2; split; [now apply restock_quantity_moves|now apply careful_moves]|].
  split; [apply shopping_fixed; cbn; intros o Ho (i & n & q & ->); intuition discriminate|].
  split; [apply shopping_made|]. split; [left; eauto|]. split; [apply all_ok_history; vm_compute; reflexivity|]. split; vm_compute; reflexivity.
Qed.

Fixpoint has_dup (l : list val) : bool := match l with [] => false | x :: l' => mem x l' || has_dup l' end.
Lemma has_dup_spec l : has_dup l = true -> ~ NoDup l.
Proof.
  induction l as [|x l IH]; cbn [has_dup]; [discriminate|]. intros H N. inversion N; subst. apply orb_true_iff in H as [H|H]; [|now apply IH].
  now apply mem_In in H.
Qed.

(** A negative restock volume makes the generator give the same identifiers again. *)
Definition restock_returned : list op :=
  [OpGenerate 3 "VOLUME" None; OpGenerateDep 0 "NEW" "VOLUME"; OpRelAddGrouped 0 "POS_ID" "NEW";
   OpGenerate 2 "EXTRA" None; OpRelAdd 0 "POS_ID" "EXTRA"].
Theorem C121_held_once_refuted : exists w S g G0 l,
  built stream w /\ supply_chain true w S g /\ all_made w S g G0 /\ new_ids G0 /\ history w l (after w l) /\ ~ NoDup (held S (after w l)).
Proof.
  exists (shopping (-1) restock_returned purchase), [0; 1], 2, (GSeq 0 "ITEM_" 2), [HExec 0].
  split; [apply shopping_built|]. split.
  { apply shopping_supply. intros w E1 E2. split; [|now apply purchase_moves].
    eapply moves_on; [apply (carry_on _ _ _ _ _ _ _ ["VOLUME"%string]); [apply volume_off; [assumption|lia]|reflexivity|repeat constructor; absent|absent|auto]|].
    eapply moves_on; [apply make_bulks; [now rewrite E2|absent|auto]|]. eapply moves_on; [apply store_many; cbn; auto|].
    eapply moves_on; [apply make_one; [absent|auto]|]. eapply moves_on; [apply store_one; cbn; auto|]. back. apply arrived. auto. }
  split; [apply shopping_made|]. split; [left; eauto|]. split; [apply all_ok_history; vm_compute; reflexivity|].
  apply has_dup_spec. vm_compute. reflexivity.
Qed.
Print Assumptions C121_held_once_refuted.

(** Buying in bulk does duplicate items, as soon as two customers buy from the same seller: the
    stories below buy with select_many and pop, and store what they bought, and an item ends up both
    with a customer and in the stock it was bought from. *)
Theorem C121_bulk_purchase_refuted : exists w S g G0 l,
  built stream w /\ stocked w S g /\ all_made w S g G0 /\ new_ids G0 /\
  (exists r f c q b, In r S /\ In b S /\ exists s, nth_error (w_stories w) 1 = Some s /\ In (OpSelectMany r f c q true false) (st_ops s) /\
     In (OpRelAddGrouped b (st_field s) c) (st_ops s)) /\
  history w l (after w l) /\ ~ NoDup (held S (after w l)).
Proof.
  exists (shopping 2 restock_volume bulk_purchase), [0; 1], 2, (GSeq 0 "ITEM_" 2), two_days.
  split; [apply shopping_built|]. split; [apply shopping_stocked|]. split; [apply shopping_made|]. split; [left; eauto|].
  split.
  { exists 0, "POS_ID"%string, "ITEMS"%string, "HOW_MANY"%string, 1. split; [cbn; auto|]. split; [cbn; auto|].
    pose proof (shopping_stories 2 restock_volume bulk_purchase) as E. apply (f_equal (fun l => nth_error l 1)) in E. rewrite nth_error_map in E.
    destruct (nth_error (w_stories (shopping 2 restock_volume bulk_purchase)) 1) as [s|]; [|discriminate]. cbn in E. injection E as E1 E2.
    exists s. split; [reflexivity|]. rewrite E1, E2. cbn. auto 10. }
  split; [apply all_ok_history; vm_compute; reflexivity|].
  apply has_dup_spec. vm_compute. reflexivity.
Qed.
Print Assumptions C121_bulk_purchase_refuted.
