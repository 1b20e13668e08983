(** What the logs tell of stocks and of accounts (C127, C128). *)
From Verif Require Import Base BaseFacts Rng Utils Relationship RelationshipFacts SpecRelationship Frame Gens Clock Attribute SpecAttribute AttributeFacts World Story Ops
  Fs Circus SpecStory SpecOps SpecCircus SpecWorld WorldProps SpecPopulation SpecLocal CircusProps SpecSupply SpecFs SpecLedger LedgerProps Samples StorySamples PropCircus PropSupply.
From Coq Require Import Permutation.

(** ** C127.  If a relationship is changed only by stories which take items from it one-to-one or put items
    into it, and which log what they took or put, then whatever happens, what was stored at the beginning
    plus what the logs say was delivered is what is stored at the end plus what the logs say was sold:
    the same (member, item) pairs, each as often. *)
Theorem C127_stock_follows_logs w r sales deliveries bulk hs L w' : stock_books w r sales deliveries bulk -> emits w hs L w' ->
  ~ In VNA (map snd (pairs_of w r)) -> ~ In VNA (map snd (entries deliveries L ++ unpacked (entries bulk L))) ->
  Permutation (pairs_of w r ++ entries deliveries L ++ unpacked (entries bulk L)) (pairs_of w' r ++ actual (entries sales L)).
Proof. exact (stock_ledger w r sales deliveries bulk hs L w'). Qed.
Print Assumptions C127_stock_follows_logs.

(** The same for circus.run and the log files it writes. *)
Theorem C127_stock_follows_files duration folder del w fs w' fs' tr r sales deliveries bulk :
  run duration folder del w fs = (Ok tt, (w', fs', tr)) -> startable fs folder del -> (0 < Clock.c_step (w_clock w))%Z ->
  stock_books w r sales deliveries bulk -> one_format w sales -> one_format w deliveries -> one_format w bulk ->
  ~ In VNA (map snd (pairs_of w r)) ->
  let read := in_file fs' folder in
  ~ In VNA (map snd (read deliveries ++ unpacked (read bulk))) ->
  Permutation (pairs_of w r ++ read deliveries ++ unpacked (read bulk)) (pairs_of w' r ++ actual (read sales)).
Proof.
  intros H St Hs Sb F1 F2 F3 N read. destruct (run_entries _ _ _ _ _ _ _ _ H St Hs) as (hs & L & He & Ef). subst read. cbv beta.
  rewrite (Ef sales F1), (Ef deliveries F2), (Ef bulk F3). exact (stock_ledger _ _ _ _ _ _ _ _ Sb He N).
Qed.
Print Assumptions C127_stock_follows_files.

(** No member sells more than it was given, nor anything it was not given. *)
Theorem C127_never_oversold w r sales deliveries bulk hs L w' k : stock_books w r sales deliveries bulk -> emits w hs L w' ->
  ~ In VNA (map snd (pairs_of w r)) -> ~ In VNA (map snd (entries deliveries L ++ unpacked (entries bulk L))) ->
  length (about k (pairs_of w' r)) + length (about k (actual (entries sales L))) =
  length (about k (pairs_of w r)) + length (about k (entries deliveries L ++ unpacked (entries bulk L))) /\
  incl (actual (entries sales L)) (pairs_of w r ++ entries deliveries L ++ unpacked (entries bulk L)).
Proof.
  intros Sb He N1 N2. pose proof (stock_ledger _ _ _ _ _ _ _ _ Sb He N1 N2) as P. split.
  - pose proof (Permutation_length (SupplyFacts.perm_filter (fun x : val * val => val_eqb (fst x) k) _ _ P)) as E.
    rewrite !filter_app, !app_length in E. unfold about. rewrite !filter_app, !app_length. lia.
  - intros x Hx. apply (Permutation_in _ (Permutation_sym P)), in_or_app. now right.
Qed.
Print Assumptions C127_never_oversold.

(** Where no item was given twice, none is sold twice, and what was sold is no longer in stock. *)
Theorem C127_sold_once w r sales deliveries bulk hs L w' : stock_books w r sales deliveries bulk -> emits w hs L w' ->
  ~ In VNA (map snd (pairs_of w r)) -> ~ In VNA (map snd (entries deliveries L ++ unpacked (entries bulk L))) ->
  NoDup (map snd (pairs_of w r ++ entries deliveries L ++ unpacked (entries bulk L))) ->
  NoDup (map snd (actual (entries sales L))) /\
  forall i, In i (map snd (actual (entries sales L))) -> ~ In i (map snd (pairs_of w' r)).
Proof.
  intros Sb He N1 N2 Nd. pose proof (stock_ledger _ _ _ _ _ _ _ _ Sb He N1 N2) as P.
  apply (Permutation_map snd) in P. apply (Permutation_NoDup P) in Nd. rewrite map_app in Nd. split; [now apply NoDup_app_r in Nd|].
  intros i H1 H2. clear - Nd H1 H2. induction (map snd (pairs_of w' r)) as [|y l IH]; [easy|]. cbn in Nd. inversion Nd; subst.
  destruct H2 as [->|H2]; [|auto]. apply H3, in_or_app. now right.
Qed.
Print Assumptions C127_sold_once.

(** ** C128.  If an attribute is changed only by stories which add to it or subtract from it, and log the
    members and the amounts, then whatever happens, the value of a member is its initial value plus the
    amounts the logs credit it with minus those the logs debit it with; and it does not change as long as
    the logs do not name it. *)
Theorem C128_account_follows_logs w a credits debits hs L w' : account_books w a credits debits -> emits w hs L w' ->
  (forall k x, k <> VNA -> holds w a k (VNum x) ->
     holds w' a k (VNum (x + total k (entries credits L) - total k (entries debits L))%Qc)) /\
  (forall k, k <> VNA -> ~ In k (map fst (entries credits L ++ entries debits L)) -> forall v, holds w' a k v <-> holds w a k v).
Proof. exact (account_ledger w a credits debits hs L w'). Qed.
Print Assumptions C128_account_follows_logs.

Theorem C128_account_follows_files duration folder del w fs w' fs' tr a credits debits :
  run duration folder del w fs = (Ok tt, (w', fs', tr)) -> startable fs folder del -> (0 < Clock.c_step (w_clock w))%Z ->
  account_books w a credits debits -> one_format w credits -> one_format w debits ->
  let read := in_file fs' folder in
  (forall k x, k <> VNA -> holds w a k (VNum x) ->
     holds w' a k (VNum (x + total k (read credits) - total k (read debits))%Qc)) /\
  (forall k, k <> VNA -> ~ In k (map fst (read credits ++ read debits)) -> forall v, holds w' a k v <-> holds w a k v).
Proof.
  intros H St Hs Sb F1 F2 read. destruct (run_entries _ _ _ _ _ _ _ _ H St Hs) as (hs & L & He & Ef). subst read. cbv beta.
  rewrite (Ef credits F1), (Ef debits F2). exact (account_ledger _ _ _ _ _ _ _ Sb He).
Qed.
Print Assumptions C128_account_follows_files.

(** *** Shops and customers, as for C120 *)
Definition restock_logged : list op :=
  [OpGenerate 3 "VOLUME" None; OpGenerate 2 "NEW" (Some "VOLUME"%string); OpRelAddGrouped 0 "POS_ID" "NEW";
   OpFieldLogger "restock" ["POS_ID"; "NEW"]%string []].
Definition purchase_logged (one_to_one : bool) : list op :=
  [OpSelectOne 2 "CUST_ID" "POS_ID" false false false None; OpSelectOne 0 "POS_ID" "ITEM" one_to_one true false None;
   OpTimestamp "TIME" true (fun _ => s_ "t"); OpFieldLogger "purchases" ["TIME"; "CUST_ID"; "POS_ID"; "ITEM"]%string []].
Definition shop_sales : book := Book "purchases" "POS_ID" "ITEM".
Definition shop_returns : book := Book "returns" "POS_ID" "ITEM".
Definition shop_restock : book := Book "restock" "POS_ID" "NEW".
Notation shops one_to_one := (shopping 1 restock_logged (purchase_logged one_to_one)).

Lemma apart_log (w : world) x books o : ~ changes w o x -> (forall ops, o <> OpChain ops) -> (forall b c ex, In b books -> o <> OpFieldLogger (log_of b) c ex) -> apart w x books o.
Proof.
  intros H1 H2 H3. split; [exact H1|]. intros b c ex Hb K. inversion K as [E|ops o' Hi Hp E]; [now apply (H3 b c ex)|]. now apply (H2 ops).
Qed.
Ltac apart_tac := apply apart_log; [cbn [changes]; try (intros (j & K & _); discriminate); try (intros [K|(j & K & _)]; discriminate); try discriminate; try tauto; intuition discriminate|discriminate|
  intros b c ex Hb; cbn in Hb; decompose [or] Hb; subst; discriminate || contradiction].
Ltac widen new := apply (widens_by _ _ _ new); [reflexivity|repeat constructor; absent|absent|auto|].

Lemma shops_books b : b = true -> stock_books (shops b) 0 shop_sales shop_returns shop_restock.
Proof.
  intros ->. split; [repeat constructor; cbn; intuition discriminate|]. split.
  - destruct (nth_error (w_rels (shopping 1 restock_logged (purchase_logged true))) 0) as [rel|] eqn:E.
    + exists rel. split; [reflexivity|]. exact (built_reachable _ _ _ _ (shopping_built 1 restock_logged (purchase_logged true)) E).
    + apply nth_error_None in E. rewrite shopping_rels in E. lia.
  - intros a s Hs. pose proof (shopping_stories 1 restock_logged (purchase_logged true)) as E.
    apply (f_equal (fun l => nth_error l a)) in E. rewrite nth_error_map, Hs in E. cbn [option_map] in E.
    destruct a as [|[|a]]; cbn [nth_error] in E; [| |now destruct a]; injection E as Ef Eo; clear Hs.
    + apply (one_to_enter _ _ _ _ s [OpGenerate 3 "VOLUME" None; OpGenerate 2 "NEW" (Some "VOLUME"%string)] (OpRelAddGrouped 0 "POS_ID" "NEW") []
        (OpFieldLogger "restock" ["POS_ID"; "NEW"]%string []) [OpBack 0 4] shop_restock ["POS_ID"; "VOLUME"; "NEW"]%string [] ["POS_ID"; "VOLUME"; "NEW"]%string).
      * exact Eo.
      * repeat (constructor; [apart_tac|]). constructor.
      * rewrite Ef. widen ["VOLUME"%string]. cbn [app]. widen ["NEW"%string]. cbn [app]. apply widens_done.
      * apply a_bulk_delivery.
      * cbn. auto.
      * intros c [].
      * cbn. auto.
      * cbn. auto.
      * apply widens_done.
      * exists ["POS_ID"; "NEW"]%string. split; [reflexivity|]. right. split; [cbn; auto|]. split; [cbn; auto|]. intros c Hc. cbn in *. tauto.
    + apply (one_to_enter _ _ _ _ s [OpSelectOne 2 "CUST_ID" "POS_ID" false false false None] (OpSelectOne 0 "POS_ID" "ITEM" true true false None) [OpTimestamp "TIME" true (fun _ => s_ "t")]
        (OpFieldLogger "purchases" ["TIME"; "CUST_ID"; "POS_ID"; "ITEM"]%string []) [OpBack 1 5] shop_sales ["CUST_ID"; "POS_ID"]%string ["ITEM"%string] ["CUST_ID"; "POS_ID"; "ITEM"; "TIME"]%string).
      * exact Eo.
      * repeat (constructor; [apart_tac|]). constructor.
      * rewrite Ef. widen ["POS_ID"%string]. cbn [app]. apply widens_done.
      * apply (a_sale _ shop_sales).
      * cbn. auto.
      * absent.
      * cbn. auto.
      * cbn. auto.
      * cbn [app]. widen ["TIME"%string]. cbn [app]. apply widens_done.
      * exists ["TIME"; "CUST_ID"; "POS_ID"; "ITEM"]%string. split; [reflexivity|]. right. split; [cbn; auto|]. split; [cbn; auto|]. intros c Hc. cbn in *. tauto.
Qed.

(** Two days: the shops held one item each and get one more a day; four of the items are sold, and once a
    day the item a customer wanted goes to another one. *)
Example C127_example : let w := shops true in let L := collect w two_days in
  stock_books w 0 shop_sales shop_returns shop_restock /\ emits w two_days L (after w two_days) /\
  ~ In VNA (map snd (pairs_of w 0)) /\ ~ In VNA (map snd (entries shop_returns L ++ unpacked (entries shop_restock L))) /\
  NoDup (map snd (pairs_of w 0 ++ entries shop_returns L ++ unpacked (entries shop_restock L))) /\
  length (pairs_of w 0) = 2 /\ length (unpacked (entries shop_restock L)) = 4 /\ length (entries shop_sales L) = 4.
Proof.
  cbv zeta. split; [now apply shops_books|]. split; [apply collect_emits; vm_compute; reflexivity|].
  split; [vm_compute; intuition discriminate|]. split; [vm_compute; intuition discriminate|].
  split; [|repeat split; vm_compute; reflexivity].
  vm_compute. repeat constructor; cbn; intuition discriminate.
Qed.

Lemma shop_story v r p : exists s, nth_error (w_stories (shopping v r p)) 1 = Some s /\ st_ops s = p ++ [OpBack 1 5].
Proof.
  pose proof (shopping_stories v r p) as E. apply (f_equal (fun l => nth_error l 1)) in E. rewrite nth_error_map in E.
  destruct (nth_error (w_stories (shopping v r p)) 1) as [s|]; [|discriminate]. cbn in E. injection E as _ Eo. eauto.
Qed.

(** Without one_to_one an item is sold to two customers, although the stories are otherwise the same. *)
Theorem C127_without_one_to_one_refuted : exists w r hs L w',
  built stream w /\ emits w hs L w' /\
  (exists a s before between log afterwards cols, nth_error (w_stories w) a = Some s /\
     st_ops s = before ++ OpSelectOne r (who shop_sales) (what shop_sales) false true false None :: between ++ log :: afterwards /\ writes shop_sales cols log) /\
  NoDup (map snd (pairs_of w r ++ unpacked (entries shop_restock L))) /\ ~ NoDup (map snd (actual (entries shop_sales L))).
Proof.
  exists (shops false), 0, two_days, (collect (shops false) two_days), (after (shops false) two_days).
  split; [exact (shopping_built 1 restock_logged (purchase_logged false))|]. split; [apply collect_emits; vm_compute; reflexivity|].
  split; [|split].
  - destruct (shop_story 1 restock_logged (purchase_logged false)) as (s & Es & Eo).
    exists 1, s, [OpSelectOne 2 "CUST_ID" "POS_ID" false false false None], [OpTimestamp "TIME" true (fun _ => s_ "t")],
      (OpFieldLogger "purchases" ["TIME"; "CUST_ID"; "POS_ID"; "ITEM"]%string []), [OpBack 1 5], ["CUST_ID"; "POS_ID"; "ITEM"; "TIME"]%string.
    split; [exact Es|]. split; [exact Eo|]. exists ["TIME"; "CUST_ID"; "POS_ID"; "ITEM"]%string. split; [reflexivity|]. right. split; [cbn; auto|]. split; [cbn; auto|].
    intros c Hc. cbn in *. tauto.
  - vm_compute. repeat constructor; cbn; intuition discriminate.
  - apply has_dup_spec. vm_compute. reflexivity.
Qed.
Print Assumptions C127_without_one_to_one_refuted.

(** *** Phone accounts: A pays one unit for every call of anybody, everybody is credited five at a time *)
Definition call_ops : list op :=
  [OpGenerate 4 "PAYER" None; OpGenerate 2 "COST" None; OpAttrAdd 0 "PAYER" "COST" true; OpTimestamp "TIME" true (fun _ => s_ "t");
   OpFieldLogger "calls" ["TIME"; "PERSON"; "PAYER"; "COST"]%string []].
Definition topup_ops : list op :=
  [OpGenerate 3 "AMOUNT" None; OpAttrAdd 0 "PERSON" "AMOUNT" false; OpFieldLogger "topups" [] []].
Definition phone_accounts : world :=
  calls people
    [CNewGen (GConst (vz 5)); CNewGen (GConst (s_ "A")); CAttribute 0 "ACCT" (Some (VScalar (vz 10))) None None;
     visit "calls" 1 true; visit "topups" 0 true; CSetOperations 0 call_ops; CSetOperations 1 topup_ops].
Definition calls_book : book := Book "calls" "PAYER" "COST".
Definition topups_book : book := Book "topups" "PERSON" "AMOUNT".
Lemma phone_stories : exists j0 j1, map (fun s => (st_field s, st_ops s)) (w_stories phone_accounts) =
  [("PERSON"%string, call_ops ++ [OpBack 0 j0]); ("PERSON"%string, topup_ops ++ [OpBack 1 j1])].
Proof. eexists _, _. vm_compute. reflexivity. Qed.

Lemma phone_books : account_books phone_accounts 0 topups_book calls_book.
Proof.
  split; [discriminate|]. split.
  - destruct (nth_error (w_attrs phone_accounts) 0) as [t|] eqn:E.
    + exists t. split; [exact E|]. apply nodupb_NoDup. apply (f_equal (fun o => match o with Some t => nodupb (map fst t) | None => false end)) in E.
      rewrite <- E. vm_compute. reflexivity.
    + apply (f_equal (fun o => match o with None => true | _ => false end)) in E. vm_compute in E. discriminate.
  - intros a s Hs. destruct phone_stories as (j0 & j1 & E).
    apply (f_equal (fun l => nth_error l a)) in E. rewrite nth_error_map, Hs in E. cbn [option_map] in E.
    destruct a as [|[|a]]; cbn [nth_error] in E; [| |now destruct a]; injection E as Ef Eo; clear Hs.
    + apply (one_to_enter _ _ _ _ s [OpGenerate 4 "PAYER" None; OpGenerate 2 "COST" None] (OpAttrAdd 0 "PAYER" "COST" true) [OpTimestamp "TIME" true (fun _ => s_ "t")]
        (OpFieldLogger "calls" ["TIME"; "PERSON"; "PAYER"; "COST"]%string []) [OpBack 0 j0] calls_book ["PERSON"; "PAYER"; "COST"]%string [] ["PERSON"; "PAYER"; "COST"; "TIME"]%string).
      * exact Eo.
      * repeat (constructor; [apart_tac|]). constructor.
      * rewrite Ef. widen ["PAYER"%string]. cbn [app]. widen ["COST"%string]. cbn [app]. apply widens_done.
      * apply (a_debit 0 topups_book calls_book).
      * cbn. auto.
      * intros c [].
      * cbn. auto.
      * cbn. auto.
      * cbn [app]. widen ["TIME"%string]. cbn [app]. apply widens_done.
      * exists ["TIME"; "PERSON"; "PAYER"; "COST"]%string. split; [reflexivity|]. right. split; [cbn; auto|]. split; [cbn; auto|]. intros c Hc. cbn in *. tauto.
    + apply (one_to_enter _ _ _ _ s [OpGenerate 3 "AMOUNT" None] (OpAttrAdd 0 "PERSON" "AMOUNT" false) []
        (OpFieldLogger "topups" [] []) [OpBack 1 j1] topups_book ["PERSON"; "AMOUNT"]%string [] ["PERSON"; "AMOUNT"]%string).
      * exact Eo.
      * repeat (constructor; [apart_tac|]). constructor.
      * rewrite Ef. widen ["AMOUNT"%string]. cbn [app]. apply widens_done.
      * apply (a_credit 0 topups_book calls_book).
      * cbn. auto.
      * intros c [].
      * cbn. auto.
      * cbn. auto.
      * apply widens_done.
      * exists []. auto.
Qed.

Definition three_hours : list happening := steps_of 2 3.
Example C128_example : let w := phone_accounts in let L := collect w three_hours in
  account_books w 0 topups_book calls_book /\ emits w three_hours L (after w three_hours) /\
  nth_error (w_attrs w) 0 = Some [(s_ "A", vz 10); (s_ "B", vz 10); (s_ "C", vz 10)] /\
  length (entries calls_book L) = 9 /\ length (entries topups_book L) = 3 /\
  nth_error (w_attrs (after w three_hours)) 0 = Some [(s_ "A", vz 6); (s_ "B", vz 15); (s_ "C", vz 15)].
Proof.
  cbv zeta. split; [exact phone_books|]. split; [apply collect_emits; vm_compute; reflexivity|].
  repeat split; vm_compute; reflexivity.
Qed.

Lemma plain_part (ops : list op) id o c ex : In o ops -> Forall (fun o => forall l, o <> OpChain l) ops -> part_of (OpFieldLogger id c ex) o -> In (OpFieldLogger id c ex) ops.
Proof.
  intros Hi HF Hp. inversion Hp as [|l o' H1 H2]; subst; [exact Hi|]. rewrite Forall_forall in HF. now destruct (HF _ Hi l).
Qed.
Lemma shops_format b cols : In (b, cols) [(shop_sales, ["TIME"; "CUST_ID"; "POS_ID"; "ITEM"]); (shop_returns, ["POS_ID"]); (shop_restock, ["POS_ID"; "NEW"])]%string -> one_format (shops true) b.
Proof.
  intros Hb. exists cols. split; [cbn in Hb; intuition congruence|]. intros a s o c ex Hs Ho Hp.
  pose proof (shopping_stories 1 restock_logged (purchase_logged true)) as E.
  apply (f_equal (fun l => nth_error l a)) in E. rewrite nth_error_map, Hs in E. cbn [option_map] in E. clear Hs.
  destruct a as [|[|a]]; cbn [nth_error] in E; [| |now destruct a]; injection E as _ Eo;
    (assert (HF : Forall (fun o => forall l, o <> OpChain l) (st_ops s)) by (rewrite Eo; cbn [app restock_logged purchase_logged]; repeat (apply Forall_cons; [discriminate|]); apply Forall_nil));
    pose proof (plain_part _ _ _ _ _ Ho HF Hp) as Hin; rewrite Eo in Hin; clear Hp HF Ho Eo; rename Hin into Hp; cbn in Hp, Hb;
    decompose [or] Hp; try discriminate; try contradiction; decompose [or] Hb; try contradiction;
    repeat match goal with K : (_, _) = (_, _) |- _ => injection K as <- <- end; cbn [log_of shop_sales shop_returns shop_restock] in *; congruence.
Qed.

Example C127_files_example : let w := shops true in exists w' fs' tr,
  run (2 * hour) logs_folder false w disk = (Ok tt, (w', fs', tr)) /\ startable disk logs_folder false /\ (0 < Clock.c_step (w_clock w))%Z /\
  stock_books w 0 shop_sales shop_returns shop_restock /\ one_format w shop_sales /\ one_format w shop_returns /\ one_format w shop_restock /\
  ~ In VNA (map snd (in_file fs' logs_folder shop_returns ++ unpacked (in_file fs' logs_folder shop_restock))) /\
  length (in_file fs' logs_folder shop_sales) = 4.
Proof.
  cbv zeta. assert (E : fst (run (2 * hour) logs_folder false (shops true) disk) = Ok tt) by (vm_compute; reflexivity).
  assert (E2 : let fs' := snd (fst (snd (run (2 * hour) logs_folder false (shops true) disk))) in
    ~ In VNA (map snd (in_file fs' logs_folder shop_returns ++ unpacked (in_file fs' logs_folder shop_restock))) /\ length (in_file fs' logs_folder shop_sales) = 4).
  { split; [vm_compute; intuition discriminate|vm_compute; reflexivity]. }
  destruct (run (2 * hour) logs_folder false (shops true) disk) as [res [[w' fs'] tr]]. cbn [fst snd] in E, E2. subst res.
  exists w', fs', tr. split; [reflexivity|]. split; [exact logging_startable|]. split; [vm_compute; reflexivity|].
  split; [now apply shops_books|]. split; [eapply shops_format; now left|]. split; [eapply shops_format; right; now left|]. split; [eapply shops_format; right; right; now left|].
  exact E2.
Qed.
