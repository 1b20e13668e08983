(** The scenario of tests/scenarios/test_cdr.py (C138). *)
From Verif Require Import Base BaseFacts Rng Utils Relationship RelationshipFacts SpecRelationship Frame Gens Clock SpecClock Attribute SpecAttribute AttributeFacts World Story Ops Helpers
  Fs Circus SpecStory SpecOps SpecCircus SpecWorld WorldProps SpecPopulation GensKept PopProps SpecLocal CircusProps SpecSupply SpecFs SpecLedger SpecRecords RecordsGens RecordsProps
  SpecSafe SafeRun Samples StorySamples PropCircus PropRecords PropSafe SpecChains ChainsProps PropChains GeographyLog Geography PropGeography Cdr SpecCdr CdrFacts CdrProps.
From Coq Require Import Permutation.

Lemma sensible_flat w h : sensible w h -> sensible (fw flats w) h.
Proof.
  assert (S : forall a, story_in w a -> story_in (fw flats w) a).
  { intros a (s & E). eexists. cbn [fw set_stories w_stories]. rewrite nth_error_map, E. reflexivity. }
  assert (Mm : forall a i, member_of w a i -> member_of (fw flats w) a i).
  { intros a i (s & E & H). eexists. cbn [fw set_stories w_stories]. rewrite nth_error_map, E. split; [reflexivity|exact H]. }
  assert (St : forall a st, state_in w a st -> state_in (fw flats w) a st).
  { intros a i (s & E & H). eexists. cbn [fw set_stories w_stories]. rewrite nth_error_map, E. split; [reflexivity|exact H]. }
  destruct h as [a| |a ids|a [ids|]|a ids states|a ids]; cbn [sensible]; intros H; intuition auto.
Qed.

(** ** C138.  The scenario never raises, whatever happens and however long it runs, provided that every
    subscriber has a possible cell, that every SIM card belongs to one subscriber, and that the attributes
    are filled with values of the right kind ([cdr_ready]). *)
Theorem C138_never_raises w c src unhealthy healthy subscribers simcards antennas hs :
  cdr_circus w c src unhealthy healthy subscribers simcards antennas -> cdr_ready w c unhealthy healthy subscribers simcards antennas ->
  Forall (sensible w) hs -> exists wend, history w hs wend.
Proof.
  intros C R Hs. apply (C135_histories_never_raise (fw flats w) w hs).
  - apply regrouped_circus_flatten. symmetry. apply regrouped_circus_flatten, regrouped_flatten.
  - exact (cdr_well_formed _ _ _ _ _ _ _ _ C R).
  - eapply Forall_impl; [|exact Hs]. intros h. apply sensible_flat.
Qed.
Print Assumptions C138_never_raises.

Theorem C138_run_completes w c src unhealthy healthy subscribers simcards antennas duration folder del fs :
  cdr_circus w c src unhealthy healthy subscribers simcards antennas -> cdr_ready w c unhealthy healthy subscribers simcards antennas ->
  startable fs folder del -> exists wend fs' tr, run duration folder del w fs = (Ok tt, (wend, fs', tr)).
Proof.
  intros C R Hs. apply (C135_never_raises (fw flats w) w duration folder del fs).
  - apply regrouped_circus_flatten. symmetry. apply regrouped_circus_flatten, regrouped_flatten.
  - exact (cdr_well_formed _ _ _ _ _ _ _ _ C R).
  - exact Hs.
  - pose proof (ready_step _ _ _ _ _ _ _ R) as K. change (w_clock (fw flats w)) with (w_clock w). unfold second in K. lia.
Qed.
Print Assumptions C138_run_completes.

(** An instance: three subscribers with four SIM cards of two operators, two cells.  The trigger of topups
    stands for the logistic function: it fires below 1000. *)
Definition sure (v : val) : result Q := match v with VNum q => Ok (this q) | _ => Err TypeError end.
Definition below (v : val) : result Q := match v with VNum q => Ok (if Qle_bool 1000 (this q) then 0 else 1)%Q | _ => Err TypeError end.
Definition network : cdr := mkCdr 0 1 2 0 1 2 3 0 1 2 3 4 5 3 4 5 6 0 1 3 4 5 (fun l => l) when.
Definition antenna_names : list val := [s_ "X"; s_ "Y"].
Definition sim_names : list val := [s_ "S1"; s_ "S2"; s_ "S3"; s_ "S4"].
Definition sub_names : list val := [s_ "A"; s_ "B"; s_ "C"].
Definition network_calls (cells : list call) (owners : list val) : list call :=
  [CNewTimer (TConst (-1)) false;
   CPopulation "sims" None None (Some sim_names);
   CPopulation "cells" None None (Some antenna_names);
   CNewGen (GConst (vz 1000)); CNewGen (GConst (s_ "VOICE")); CNewGen (GConst (s_ "SMS"));
   CNewGen (GNumpy (NpChoice [vz 20; vz 60; vz 239] None) (random_state stream 7) None);
   CNewDepGen (DTrigger sure (random_state stream 8)); CNewDepGen (DTrigger below (random_state stream 9));
   CRelationship 0 "FRIENDS" None; CRelAdd 0 [s_ "A"; s_ "B"; s_ "C"; s_ "C"] [s_ "B"; s_ "A"; s_ "A"; s_ "B"];
   CRelationship 0 "SIMS" None; CRelAdd 1 owners [s_ "S1"; s_ "S2"; s_ "S3"; s_ "S4"];
   CRelationship 0 "POSSIBLE_CELLS" None] ++ cells ++
  [CRelationship 1 "POSSIBLE_AGENTS" None; CRelAdd 3 [s_ "S1"; s_ "S2"; s_ "S3"] [s_ "P"; s_ "P"; s_ "Q"];
   CAttribute 0 "CELL" None None (Some "POSSIBLE_CELLS"%string);
   CAttribute 0 "EXCITABILITY" None (Some 0) None;
   CAttribute 1 "OPERATOR" (Some (VValues [s_ "OPERATOR_0"; s_ "OPERATOR_1"; s_ "OPERATOR_1"; s_ "OPERATOR_0"])) None None;
   CAttribute 1 "MSISDN" (Some (VValues [s_ "00321"; s_ "00322"; s_ "00323"; s_ "00324"])) None None;
   CAttribute 1 "MAIN_ACCT" None (Some 3) None;
   CAttribute 2 "HEALTH" None (Some 0) None;
   CStory keep_order "cell_break_down" 2 "CELL_ID" (0, 1) None 0 true;
   CStory keep_order "cell_repair" 2 "CELL_ID" (0, 1) None 0 false;
   CStory keep_order "mobility" 0 "A_ID" (0, 1) None 1 true;
   CStory keep_order "topups" 1 "SIM_ID" (0, 1) None 2 false;
   CStory keep_order "calls" 0 "A_ID" (0, 1) (Some [("excited"%string, (0, 2))]) 1 true;
   CStory keep_order "sms" 0 "A_ID" (0, 1) (Some [("excited"%string, (0, 2))]) 1 true;
   CSetOperations 0 (break_down_ops sample_sources 1 5 1);
   CSetOperations 1 (repair_ops sample_sources 0 5);
   CSetOperations 2 (cdr_mobility network);
   CSetOperations 3 (cdr_topups network);
   CSetOperations 4 (cdr_calls network);
   CSetOperations 5 (cdr_sms network)].
Definition cdr_sample : world :=
  calls people (network_calls [CRelAdd 2 [s_ "A"; s_ "A"; s_ "B"; s_ "C"] [s_ "X"; s_ "Y"; s_ "X"; s_ "Y"]] [s_ "A"; s_ "A"; s_ "B"; s_ "C"]).

Lemma cdr_sample_built : built stream cdr_sample.
Proof. unfold cdr_sample, people. apply built_calls; [apply built_calls; [apply built_new|]|]; repeat constructor; intros l; apply Permutation_refl. Qed.

Definition story_of (w : world) (a : nat) : story := nth a (w_stories w) (mkStory "" 0 "" 0 false [] [] [] [] []).
Lemma story_of_is w a : a < length (w_stories w) -> nth_error (w_stories w) a = Some (story_of w a).
Proof. intros H. unfold story_of. now apply nth_error_nth'. Qed.
Lemma cdr_sample_shape : cdr_circus cdr_sample network sample_sources 1 0 sub_names sim_names antenna_names.
Proof.
  assert (L : length (w_stories cdr_sample) = 6) by (vm_compute; reflexivity).
  assert (S : forall a, a < 6 -> nth_error (w_stories cdr_sample) a = Some (story_of cdr_sample a)) by (intros a H; apply story_of_is; rewrite L; exact H).
  constructor.
  - split; [reflexivity|]. split; [reflexivity|]. split; [reflexivity|exact L].
  - exists (story_of cdr_sample 0). split; [apply S; lia|]. split; [vm_compute; reflexivity|]. split; [vm_compute; reflexivity|]. exists 7. reflexivity.
  - exists (story_of cdr_sample 1). split; [apply S; lia|]. split; [vm_compute; reflexivity|]. split; [vm_compute; reflexivity|]. exists 8. reflexivity.
  - exists (story_of cdr_sample 2). split; [apply S; lia|]. split; [vm_compute; reflexivity|]. split; [vm_compute; reflexivity|]. exists 9. reflexivity.
  - exists (story_of cdr_sample 3). split; [apply S; lia|]. split; [vm_compute; reflexivity|]. split; [vm_compute; reflexivity|]. exists 10. reflexivity.
  - exists (story_of cdr_sample 4). split; [split; [apply S; lia|]; split; [vm_compute; reflexivity|]; split; [vm_compute; reflexivity|]; exists 11; reflexivity|].
    assert (E : mem "excited"%string (st_states (story_of cdr_sample 4)) = true) by (vm_compute; reflexivity). exact (proj1 (mem_In "excited"%string (st_states (story_of cdr_sample 4))) E).
  - exists (story_of cdr_sample 5). split; [split; [apply S; lia|]; split; [vm_compute; reflexivity|]; split; [vm_compute; reflexivity|]; exists 12; reflexivity|].
    assert (E : mem "excited"%string (st_states (story_of cdr_sample 5)) = true) by (vm_compute; reflexivity). exact (proj1 (mem_In "excited"%string (st_states (story_of cdr_sample 5))) E).
  - repeat split; eexists; (split; vm_compute; reflexivity).
  - apply nodupb_NoDup. reflexivity.
Qed.


Lemma in_items w r k v : In v (items w r k) <-> In (k, v) (pairs_of w r).
Proof.
  unfold items, about. rewrite in_map_iff. split.
  - intros ((k', v') & <- & H). apply filter_In in H as [H E]. cbn [fst] in E. apply val_eqb_eq in E. now subst.
  - intros H. exists (k, v). split; [reflexivity|]. apply filter_In. split; [exact H|]. now apply val_eqb_eq.
Qed.
(** A relationship whose weights are all 1. *)
Lemma ones_choosable w r l : match nth_error (w_rels w) r with Some rel => stored rel = map (fun x => (x, 1%Q)) l | None => False end -> choosable w r.
Proof.
  unfold choosable. destruct (nth_error (w_rels w) r) as [rel|]; [|contradiction]. intros E. exists rel. split; [reflexivity|]. split.
  - intros f t q H. rewrite E in H. apply in_map_iff in H as (x & [= -> <-] & _). discriminate.
  - intros f H. unfold tos_stored in H. rewrite E in H |- *. destruct (filter _ _) as [|[[f' t] q] rest] eqn:Ef; [cbn in H; lia|].
    assert (K : In (f', t, q) (filter (fun x => keqb (fst (fst x)) f) (map (fun x => (x, 1%Q)) l))) by (rewrite Ef; now left).
    apply filter_In in K as [K1 K2]. cbn in K2. apply keqb_eq in K2. subst f'. exists t, q. split; [exact K1|]. apply in_map_iff in K1 as (x & [= -> <-] & _). reflexivity.
Qed.
Lemma table_filled w x ids (ok : val -> val -> Prop) t : nth_error (w_attrs w) x = Some t -> nodupb (map fst t) = true -> forallb (fun i => mem i (map fst t)) ids = true ->
  (forall kv, In kv t -> ok (fst kv) (snd kv)) -> filled w x ids ok.
Proof.
  intros E N I K. exists t. split; [exact E|]. split; [now apply nodupb_NoDup|]. split; [intros i Hi; apply mem_In; rewrite forallb_forall in I; auto|]. intros k v H. exact (K _ H).
Qed.

Ltac cases H := cbn in H; repeat (destruct H as [H|H]; [injection H as <- <-|]); try contradiction.
Lemma sample_Tm : forallb (fun s : story => forallb (fun x : val * (string * option Z) => mem (fst (snd x)) (st_states s)) (st_timer s)) (w_stories cdr_sample) = true.
Proof. vm_compute. reflexivity. Qed.
Lemma sample_Tg : forallb (fun s => st_tgen s <? length (w_tgens cdr_sample)) (w_stories cdr_sample) = true.
Proof. vm_compute. reflexivity. Qed.
Lemma sample_Sc : (second <= Clock.c_step (w_clock cdr_sample))%Z.
Proof. vm_compute. discriminate. Qed.
Lemma cdr_sample_ready : cdr_ready cdr_sample network 1 0 sub_names sim_names antenna_names.
Proof.
  assert (P1 : pairs_of cdr_sample 1 = [(s_ "A", s_ "S1"); (s_ "A", s_ "S2"); (s_ "B", s_ "S3"); (s_ "C", s_ "S4")]) by (vm_compute; reflexivity).
  assert (P2 : pairs_of cdr_sample 2 = [(s_ "A", s_ "X"); (s_ "A", s_ "Y"); (s_ "B", s_ "X"); (s_ "C", s_ "Y")]) by (vm_compute; reflexivity).
  assert (A0 : nth_error (w_attrs cdr_sample) 0 = Some [(s_ "A", s_ "X"); (s_ "B", s_ "X"); (s_ "C", s_ "Y")]) by (vm_compute; reflexivity).
  assert (A1 : nth_error (w_attrs cdr_sample) 1 = Some (map (fun i => (i, vz 1)) sub_names)) by (vm_compute; reflexivity).
  assert (A2 : nth_error (w_attrs cdr_sample) 2 = Some (combine sim_names [s_ "OPERATOR_0"; s_ "OPERATOR_1"; s_ "OPERATOR_1"; s_ "OPERATOR_0"])) by (vm_compute; reflexivity).
  assert (A3 : nth_error (w_attrs cdr_sample) 3 = Some (combine sim_names [s_ "00321"; s_ "00322"; s_ "00323"; s_ "00324"])) by (vm_compute; reflexivity).
  assert (A4 : nth_error (w_attrs cdr_sample) 4 = Some (map (fun i => (i, vz 1000)) sim_names)) by (vm_compute; reflexivity).
  assert (A5 : nth_error (w_attrs cdr_sample) 5 = Some (map (fun i => (i, vz 1)) antenna_names)) by (vm_compute; reflexivity).
  assert (G : firstn 7 (w_gens cdr_sample) = [GConst (vz 1); GConst (vz 0); GConst (vz 1); GConst (vz 1000); GConst (s_ "VOICE"); GConst (s_ "SMS");
     GNumpy (NpChoice [vz 20; vz 60; vz 239] None) (random_state stream 7) None]) by (vm_compute; reflexivity).
  assert (D : w_dgens cdr_sample = [DTrigger sure (random_state stream 8); DTrigger below (random_state stream 9)]) by (vm_compute; reflexivity).
  assert (R0 : match nth_error (w_rels cdr_sample) 0 with Some rel => stored rel = map (fun x => (x, 1%Q)) [(s_ "A", s_ "B"); (s_ "B", s_ "A"); (s_ "C", s_ "A"); (s_ "C", s_ "B")] | None => False end) by (vm_compute; reflexivity).
  assert (R1 : match nth_error (w_rels cdr_sample) 1 with Some rel => stored rel = map (fun x => (x, 1%Q)) [(s_ "A", s_ "S1"); (s_ "A", s_ "S2"); (s_ "B", s_ "S3"); (s_ "C", s_ "S4")] | None => False end) by (vm_compute; reflexivity).
  assert (R2 : match nth_error (w_rels cdr_sample) 2 with Some rel => stored rel = map (fun x => (x, 1%Q)) [(s_ "A", s_ "X"); (s_ "A", s_ "Y"); (s_ "B", s_ "X"); (s_ "C", s_ "Y")] | None => False end) by (vm_compute; reflexivity).
  assert (R3 : match nth_error (w_rels cdr_sample) 3 with Some rel => stored rel = map (fun x => (x, 1%Q)) [(s_ "S1", s_ "P"); (s_ "S2", s_ "P"); (s_ "S3", s_ "Q")] | None => False end) by (vm_compute; reflexivity).
  assert (L : length (w_stories cdr_sample) = 6) by (vm_compute; reflexivity).
  assert (Js : map (fun s => flat_map (fun o => match o with OpBack _ j => [j] | _ => [] end) (st_ops s)) (w_stories cdr_sample) = [[7]; [8]; [9]; [10]; [11]; [12]]) by (vm_compute; reflexivity).
  assert (Gj : map (fun g => match g with GNumpy NpUniform _ _ => true | _ => false end) (skipn 7 (w_gens cdr_sample)) = repeat true 6) by (vm_compute; reflexivity).
  pose proof sample_Tm as Tm.
  pose proof sample_Tg as Tg.
  pose proof sample_Sc as Sc.
  assert (Ri : Forall reachable (w_rels cdr_sample)) by (apply Forall_forall; intros rel Hin; apply In_nth_error in Hin as [r Hr]; exact (built_reachable _ _ _ _ cdr_sample_built Hr)).
  pose proof cdr_sample_built as B. revert Sc Ri B P1 P2 A0 A1 A2 A3 A4 A5 G D R0 R1 R2 R3 L Js Gj Tm Tg. generalize cdr_sample as w. intros w Sc Ri B P1 P2 A0 A1 A2 A3 A4 A5 G D R0 R1 R2 R3 L Js Gj Tm Tg.
  assert (Gen : forall i g, i < 7 -> nth_error (firstn 7 (w_gens w)) i = Some g -> nth_error (w_gens w) i = Some g).
  { intros i g Hi E. rewrite <- (firstn_skipn 7 (w_gens w)). rewrite nth_error_app1; [exact E|]. apply nth_error_Some. congruence. }
  rewrite G in Gen.
  assert (Const : forall i q, i < 7 -> nth_error (w_gens w) i = Some (GConst (VNum q)) -> gives_numbers w i).
  { intros i q Hi E. split; [eapply sure_const; exact E|]. intros v Hv. inversion Hv; try congruence. exists q. congruence. }
  constructor; cbn [network k_cell k_excitability k_operator k_msisdn k_main_acct k_health k_possible_cells k_sims_of k_friends k_agents k_recharge k_duration k_voice k_text k_flat k_recharge_trigger k_order].
  - apply (table_filled _ _ _ _ _ A0); [reflexivity|reflexivity|]. intros kv H. apply in_items. rewrite P2. cbn in H. intuition (subst; cbn; tauto).
  - apply (table_filled _ _ _ _ _ A1); [reflexivity|reflexivity|]. intros kv H. apply in_map_iff in H as (i & <- & _). eexists. reflexivity.
  - apply (table_filled _ _ _ _ _ A2); [reflexivity|reflexivity|]. trivial.
  - apply (table_filled _ _ _ _ _ A3); [reflexivity|reflexivity|]. trivial.
  - apply (table_filled _ _ _ _ _ A4); [reflexivity|reflexivity|]. intros kv H. apply in_map_iff in H as (i & <- & _). eexists. reflexivity.
  - apply (table_filled _ _ _ _ _ A5); [reflexivity|reflexivity|]. intros kv H. apply in_map_iff in H as (i & <- & _). eexists. reflexivity.
  - intros i Hi E. assert (K : exists v, In v (items w 2 i)).
    { destruct Hi as [<-|[<-|[<-|[]]]]; [exists (s_ "X")|exists (s_ "X")|exists (s_ "Y")]; apply in_items; rewrite P2; cbn; tauto. }
    destruct K as (v & K). rewrite E in K. destruct K.
  - intros i v H. apply in_items in H. rewrite P2 in H. clear - H. cases H; cbn; tauto.
  - intros i sim H. apply in_items in H. rewrite P1 in H. clear - H. cases H; cbn; tauto.
  - intros i j sim H H'. apply in_items in H, H'. rewrite P1 in H, H'. clear - H H'. cases H; cbn in H'; repeat (destruct H' as [H'|H']; [first [discriminate H'|inversion H'; reflexivity]|]); contradiction.
  - destruct (nth_error (w_rels w) 1) as [rel|]; [|contradiction]. exists rel. split; [reflexivity|]. left. intros f t q H. rewrite R1 in H. cbn in H. clear - H. intuition (match goal with K : _ = _ |- _ => injection K as <- <- <- end; reflexivity).
  - intros l H. cbn in H. clear - H. intuition discriminate.
  - split; [exact (ones_choosable _ _ _ R2)|]. split; [exact (ones_choosable _ _ _ R0)|exact (ones_choosable _ _ _ R3)].
  - split; [eapply Const; [|apply Gen; [|reflexivity]]; lia|]. split; [eapply Const; [|apply Gen; [|reflexivity]]; lia|]. split; [eapply Const; [|apply Gen; [|reflexivity]]; lia|].
    split; [|split; eapply sure_const; (apply Gen; [lia|reflexivity])].
    assert (E : nth_error (w_gens w) 6 = Some (GNumpy (NpChoice [vz 20; vz 60; vz 239] None) (random_state stream 7) None)) by (apply Gen; [lia|reflexivity]).
    split; [eapply sure_choice; [exact E|discriminate]|]. intros v Hv. inversion Hv as [| | |? a ? ? ? E' Hin| | | | | | | | | |]; try congruence. rewrite E in E'. injection E' as <- _ _.
    clear - Hin. destruct Hin as [<-|[<-|[<-|[]]]]; eexists; reflexivity.
  - split; (eexists _, _; split; [rewrite D; reflexivity|intros q; eexists; reflexivity]).
  - intros a s judge Hs Hj.
    assert (K : In judge [7; 8; 9; 10; 11; 12]).
    { assert (Hin : In judge (concat (map (fun s => flat_map (fun o => match o with OpBack _ j => [j] | _ => [] end) (st_ops s)) (w_stories w)))).
      { apply in_concat. eexists. split; [apply in_map, (nth_error_In _ _ Hs)|]. apply in_flat_map. eexists. split; [exact Hj|now left]. }
      rewrite Js in Hin. exact Hin. }
    assert (E : exists st b, nth_error (w_gens w) judge = Some (GNumpy NpUniform st b)).
    { assert (Hl : length (firstn 7 (w_gens w)) = 7) by (rewrite G; reflexivity).
      assert (Hjj : nth_error (map (fun g => match g with GNumpy NpUniform _ _ => true | _ => false end) (skipn 7 (w_gens w))) (judge - 7) = Some true).
      { rewrite Gj. clear - K. destruct K as [<-|[<-|[<-|[<-|[<-|[<-|[]]]]]]]; reflexivity. }
      rewrite nth_error_map in Hjj. rewrite <- (firstn_skipn 7 (w_gens w)), nth_error_app2 by (rewrite Hl; clear - K; cbn in K; lia). rewrite Hl.
      destruct (nth_error (skipn 7 (w_gens w)) (judge - 7)) as [g|]; [|discriminate]. cbn in Hjj. destruct g as [| |m st b| | | | | |]; try discriminate. destruct m; try discriminate. eauto. }
    destruct E as (st & b & E). split; [eapply sure_uniform; exact E|]. intros v Hv. inversion Hv; try congruence. eexists. reflexivity.
  - intros l. apply Permutation_refl.
  - intros a s Hs. refine (proj1 (C134_made_with_the_api _ _ _ _ B Hs _ _)).
    + rewrite forallb_forall in Tm. specialize (Tm _ (nth_error_In _ _ Hs)). rewrite forallb_forall in Tm. intros i st r Hin. apply mem_In. exact (Tm _ Hin).
    + rewrite forallb_forall in Tg. specialize (Tg _ (nth_error_In _ _ Hs)). apply Nat.ltb_lt in Tg. destruct (nth_error (w_tgens w) (st_tgen s)) eqn:E; [eauto|]. apply nth_error_None in E. lia.
  - exact Ri.
  - exact Sc.
Qed.

(** Three hours of it: calls, messages, topups, moves and break-downs are logged; among the calls some are
    dropped. *)
Example C138_example : cdr_circus cdr_sample network sample_sources 1 0 sub_names sim_names antenna_names /\
  cdr_ready cdr_sample network 1 0 sub_names sim_names antenna_names /\ built stream cdr_sample /\ startable disk logs_folder false /\
  Forall (sensible cdr_sample) [HExec 4; HClock; HForce 3 [s_ "S1"; s_ "S4"]; HExec 3; HExec 5; HTransit 4 [s_ "B"] ["excited"%string]] /\
  let r := run (3 * hour) logs_folder false cdr_sample disk in
  map (fun id => length (recorded (snd (fst (snd r))) logs_folder id)) ["voice_cdr"; "sms_cdr"; "topups"; "mobility_logs"; "cell_status"]%string = [6; 6; 3; 9; 2] /\
  map (fun r => r "STATUS"%string) (recorded (snd (fst (snd r))) logs_folder "voice_cdr") = map VStr ["OK"; "OK"; "OK"; "OK"; "DROPPED"; "DROPPED"]%string.
Proof.
  split; [exact cdr_sample_shape|]. split; [exact cdr_sample_ready|]. split; [exact cdr_sample_built|]. split; [exact logging_startable|]. split; [|split; vm_compute; reflexivity].
  assert (L : length (w_stories cdr_sample) = 6) by (vm_compute; reflexivity).
  assert (S : forall a, a < 6 -> story_in cdr_sample a) by (intros a Ha; exists (story_of cdr_sample a); apply story_of_is; rewrite L; exact Ha).
  assert (M : forall a i, a < 6 -> mem i (st_ids (story_of cdr_sample a)) = true -> member_of cdr_sample a i).
  { intros a i Ha Hm. exists (story_of cdr_sample a). split; [apply story_of_is; rewrite L; exact Ha|exact (proj1 (mem_In i (st_ids (story_of cdr_sample a))) Hm)]. }
  assert (M1 : mem (s_ "S1") (st_ids (story_of cdr_sample 3)) = true) by (vm_compute; reflexivity).
  assert (M4 : mem (s_ "S4") (st_ids (story_of cdr_sample 3)) = true) by (vm_compute; reflexivity).
  assert (MB : mem (s_ "B") (st_ids (story_of cdr_sample 4)) = true) by (vm_compute; reflexivity).
  assert (E : mem "excited"%string (st_states (story_of cdr_sample 4)) = true) by (vm_compute; reflexivity).
  rewrite !Forall_cons_iff. cbn [sensible]. split; [apply S; lia|]. split; [exact I|]. split; [|split; [apply S; lia|split; [apply S; lia|split; [|constructor]]]].
  - split; [apply S; lia|]. intros i [<-|[<-|[]]]; apply M; first [lia|assumption].
  - split; [apply S; lia|]. split; [reflexivity|]. split; [intros i [<-|[]]; apply M; [lia|exact MB]|]. intros st [<-|[]].
    exists (story_of cdr_sample 4). split; [apply story_of_is; rewrite L; lia|exact (proj1 (mem_In "excited"%string (st_states (story_of cdr_sample 4))) E)].
Qed.

(** *** The conditions are needed *)

(** A subscriber without a possible cell: the random graph of test_cdr.py:257-260 may leave some without.
    The circus is created, and the run raises. *)
Definition no_cell : world :=
  calls people (network_calls [CRelAdd 2 [s_ "A"; s_ "A"; s_ "B"] [s_ "X"; s_ "Y"; s_ "X"]] [s_ "A"; s_ "A"; s_ "B"; s_ "C"]).
Lemma no_cell_shape : cdr_circus no_cell network sample_sources 1 0 sub_names sim_names antenna_names.
Proof.
  assert (L : length (w_stories no_cell) = 6) by (vm_compute; reflexivity).
  assert (S : forall a, a < 6 -> nth_error (w_stories no_cell) a = Some (story_of no_cell a)) by (intros a H; apply story_of_is; rewrite L; exact H).
  constructor.
  - split; [reflexivity|]. split; [reflexivity|]. split; [reflexivity|exact L].
  - exists (story_of no_cell 0). split; [apply S; lia|]. split; [vm_compute; reflexivity|]. split; [vm_compute; reflexivity|]. exists 7. reflexivity.
  - exists (story_of no_cell 1). split; [apply S; lia|]. split; [vm_compute; reflexivity|]. split; [vm_compute; reflexivity|]. exists 8. reflexivity.
  - exists (story_of no_cell 2). split; [apply S; lia|]. split; [vm_compute; reflexivity|]. split; [vm_compute; reflexivity|]. exists 9. reflexivity.
  - exists (story_of no_cell 3). split; [apply S; lia|]. split; [vm_compute; reflexivity|]. split; [vm_compute; reflexivity|]. exists 10. reflexivity.
  - exists (story_of no_cell 4). split; [split; [apply S; lia|]; split; [vm_compute; reflexivity|]; split; [vm_compute; reflexivity|]; exists 11; reflexivity|].
    assert (E : mem "excited"%string (st_states (story_of no_cell 4)) = true) by (vm_compute; reflexivity). exact (proj1 (mem_In "excited"%string (st_states (story_of no_cell 4))) E).
  - exists (story_of no_cell 5). split; [split; [apply S; lia|]; split; [vm_compute; reflexivity|]; split; [vm_compute; reflexivity|]; exists 12; reflexivity|].
    assert (E : mem "excited"%string (st_states (story_of no_cell 5)) = true) by (vm_compute; reflexivity). exact (proj1 (mem_In "excited"%string (st_states (story_of no_cell 5))) E).
  - repeat split; eexists; (split; vm_compute; reflexivity).
  - apply nodupb_NoDup. reflexivity.
Qed.

Theorem C138_cellless_refuted : exists w c src unhealthy healthy subscribers simcards antennas i, built stream w /\ cdr_circus w c src unhealthy healthy subscribers simcards antennas /\
  In i subscribers /\ items w (k_possible_cells c) i = [] /\ startable disk logs_folder false /\ fst (run (3 * hour) logs_folder false w disk) = Err KeyError.
Proof.
  exists no_cell, network, sample_sources, 1, 0, sub_names, sim_names, antenna_names, (s_ "C").
  split; [unfold no_cell, people; apply built_calls; [apply built_calls; [apply built_new|]|]; repeat constructor; intros l; apply Permutation_refl|].
  split; [exact no_cell_shape|]. split; [cbn; tauto|]. split; [vm_compute; reflexivity|]. split; [exact logging_startable|]. vm_compute. reflexivity.
Qed.
Print Assumptions C138_cellless_refuted.

(** A SIM card that belongs to two subscribers, who use it in the same step. *)
Definition shared_sim : world :=
  calls people (network_calls [CRelAdd 1 [s_ "B"] [s_ "S1"]; CRelAdd 2 [s_ "A"; s_ "A"; s_ "B"; s_ "C"] [s_ "X"; s_ "Y"; s_ "X"; s_ "Y"]] [s_ "A"; s_ "A"; s_ "C"; s_ "C"]).
Lemma shared_sim_shape : cdr_circus shared_sim network sample_sources 1 0 sub_names sim_names antenna_names.
Proof.
  assert (L : length (w_stories shared_sim) = 6) by (vm_compute; reflexivity).
  assert (S : forall a, a < 6 -> nth_error (w_stories shared_sim) a = Some (story_of shared_sim a)) by (intros a H; apply story_of_is; rewrite L; exact H).
  constructor.
  - split; [reflexivity|]. split; [reflexivity|]. split; [reflexivity|exact L].
  - exists (story_of shared_sim 0). split; [apply S; lia|]. split; [vm_compute; reflexivity|]. split; [vm_compute; reflexivity|]. exists 7. reflexivity.
  - exists (story_of shared_sim 1). split; [apply S; lia|]. split; [vm_compute; reflexivity|]. split; [vm_compute; reflexivity|]. exists 8. reflexivity.
  - exists (story_of shared_sim 2). split; [apply S; lia|]. split; [vm_compute; reflexivity|]. split; [vm_compute; reflexivity|]. exists 9. reflexivity.
  - exists (story_of shared_sim 3). split; [apply S; lia|]. split; [vm_compute; reflexivity|]. split; [vm_compute; reflexivity|]. exists 10. reflexivity.
  - exists (story_of shared_sim 4). split; [split; [apply S; lia|]; split; [vm_compute; reflexivity|]; split; [vm_compute; reflexivity|]; exists 11; reflexivity|].
    assert (E : mem "excited"%string (st_states (story_of shared_sim 4)) = true) by (vm_compute; reflexivity). exact (proj1 (mem_In "excited"%string (st_states (story_of shared_sim 4))) E).
  - exists (story_of shared_sim 5). split; [split; [apply S; lia|]; split; [vm_compute; reflexivity|]; split; [vm_compute; reflexivity|]; exists 12; reflexivity|].
    assert (E : mem "excited"%string (st_states (story_of shared_sim 5)) = true) by (vm_compute; reflexivity). exact (proj1 (mem_In "excited"%string (st_states (story_of shared_sim 5))) E).
  - repeat split; eexists; (split; vm_compute; reflexivity).
  - apply nodupb_NoDup. reflexivity.
Qed.

Theorem C138_shared_sim_refuted : exists w c src unhealthy healthy subscribers simcards antennas i j sim, built stream w /\ cdr_circus w c src unhealthy healthy subscribers simcards antennas /\
  i <> j /\ In sim (items w (k_sims_of c) i) /\ In sim (items w (k_sims_of c) j) /\ startable disk logs_folder false /\ fst (run (3 * hour) logs_folder false w disk) = Err ValueError.
Proof.
  exists shared_sim, network, sample_sources, 1, 0, sub_names, sim_names, antenna_names, (s_ "A"), (s_ "B"), (s_ "S1").
  split; [unfold shared_sim, people; apply built_calls; [apply built_calls; [apply built_new|]|]; repeat constructor; intros l; apply Permutation_refl|].
  split; [exact shared_sim_shape|]. split; [discriminate|].
  assert (P1 : pairs_of shared_sim 1 = [(s_ "A", s_ "S1"); (s_ "A", s_ "S2"); (s_ "C", s_ "S3"); (s_ "C", s_ "S4"); (s_ "B", s_ "S1")]) by (vm_compute; reflexivity).
  split; [refine (proj2 (in_items shared_sim 1 (s_ "A") (s_ "S1")) _); rewrite P1; clear; cbn; tauto|]. split; [refine (proj2 (in_items shared_sim 1 (s_ "B") (s_ "S1")) _); rewrite P1; clear; cbn; tauto|]. split; [exact logging_startable|]. vm_compute. reflexivity.
Qed.
Print Assumptions C138_shared_sim_refuted.
