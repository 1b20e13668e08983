(** C123-C125.  What is stored in a namespace beside a circus. *)
From Coq Require Import Permutation.
From Verif Require Import Base BaseFacts Rng Utils Relationship Frame Gens Clock Attribute World Circus Fs SpecFs FsFacts
  SpecWorld Persist SpecPersist PersistFacts PersistMore PersistSamples Samples StorySamples PropCircus PropPersist
  Namespace NamespaceFacts NamespaceProps.

(** ** C123.  save_params_to_db writes the parameters in the namespace of the circus, and nothing else.
    Whatever circus is loaded afterwards, the same is loaded as before. *)
Theorem C123_params_stored db name type text n n' : save_params_to_db db name type text n = (Ok tt, n') ->
  see n' (db ++ [name; ("params_" ++ type ++ ".json")%string]) = AFile (Json (JParams text)) /\
  (forall q, q <> db ++ [name; ("params_" ++ type ++ ".json")%string] -> see n' q = see n q) /\
  (forall fmt ls g other, load_from_db fmt ls g n' db other = load_from_db fmt ls g n db other).
Proof.
  intros E. destruct (save_params_see _ _ _ _ _ _ E) as [A B].
  unfold namespace_folder, params_name in *. rewrite <- app_assoc in A. split; [exact A|]. split.
  - intros q Hq. apply B. rewrite <- app_assoc. exact Hq.
  - intros fmt ls g other. exact (save_params_loads fmt ls g db name type text n n' E other).
Qed.
Print Assumptions C123_params_stored.

(** It succeeds exactly when the namespace is there and no directory has that name; otherwise it raises and
    writes nothing. *)
Theorem C123_succeeds db name type text n :
  ((exists n', save_params_to_db db name type text n = (Ok tt, n')) <->
   see n (db ++ [name]) = ADir /\ see n (db ++ [name; ("params_" ++ type ++ ".json")%string]) <> ADir) /\
  (forall e n', save_params_to_db db name type text n = (Err e, n') -> n' = n).
Proof.
  split.
  - pose proof (save_params_ok db name type text n) as H. unfold namespace_folder, params_name in H. now rewrite <- app_assoc in H.
  - intros e n' E. unfold save_params_to_db, sys in E. destruct (write_file _ _ _); [discriminate|]. now injection E as _ <-.
Qed.
Print Assumptions C123_succeeds.

(** Parameters stored before the circus is saved again are lost, whatever the circus is: only the
    configuration, the populations and the generators are in the namespace afterwards. *)
Theorem C123_forgotten fmt db c overwrite n n' : save_to_db fmt db c overwrite n = (Ok tt, n') ->
  (forall type, see n' (db ++ [c_name c; ("params_" ++ type ++ ".json")%string]) = Nothing) /\
  (forall x r, ~ In x ["circus_config.json"; "populations"; "generators"]%string -> see n' (db ++ c_name c :: x :: r) = Nothing).
Proof.
  intros E.
  assert (H : forall x r, ~ In x ["circus_config.json"; "populations"; "generators"]%string -> see n' (db ++ c_name c :: x :: r) = Nothing).
  { intros x r Hx. pose proof (save_forgets fmt db c overwrite n n' x r E) as H. unfold namespace_folder in H. rewrite <- app_assoc in H.
    apply H; intros ->; apply Hx; cbn; auto. }
  split; [|exact H]. intros type. apply H. cbn. intuition discriminate.
Qed.
Print Assumptions C123_forgotten.

Definition saved_bazaar : node doc := snd (save_to_db plain ["db"%string] bazaar false (Dir [])).
Lemma bazaar_saved : save_to_db plain ["db"%string] bazaar false (Dir []) = (Ok tt, saved_bazaar).
Proof.
  unfold saved_bazaar. destruct C72_example as (n1 & _ & E & _). now rewrite E.
Qed.
Example C123_example : exists n' c, save_params_to_db ["db"%string] "bazaar" "build" "{}" saved_bazaar = (Ok tt, n') /\
  load_from_db plain (fun l => l) stream n' ["db"%string] "bazaar" = Ok c /\
  exists n2, save_to_db plain ["db"%string] bazaar true n' = (Ok tt, n2).
Proof.
  assert (exists n', save_params_to_db ["db"%string] "bazaar" "build" "{}" saved_bazaar = (Ok tt, n')) as [n' E].
  { apply C123_succeeds. split; [vm_compute; reflexivity|vm_compute; discriminate]. }
  destruct C72_example as (n1 & c & E1 & E2 & _). rewrite bazaar_saved in E1. injection E1 as <-.
  exists n', c. split; [exact E|]. split; [now rewrite (proj2 (proj2 (C123_params_stored _ _ _ _ _ _ E)))|].
  apply (C72_saving_succeeds plain ["db"%string] bazaar true n' bazaar_clean); [|left; reflexivity].
  destruct (C123_params_stored _ _ _ _ _ _ E) as (_ & K & _).
  intros [|a [|b q]] x H1 H2.
  - rewrite K by discriminate. vm_compute. discriminate.
  - rewrite K by discriminate. destruct H1 as [r Hr]. injection Hr as <- _. vm_compute. discriminate.
  - exfalso. destruct H1 as [r Hr]. injection Hr as <- <- Hr. apply H2. now destruct q.
Qed.

(** ** C124.  A timer profile or an empirical generator stored in a namespace is read back as it was
    written, next to everything which was there, and does not change other namespaces. *)
Theorem C124_timer_stored fmt db ns id p n n' : save_timer_gen fmt db ns id p n = (Ok tt, n') ->
  load_timer_gen_config fmt n' db ns id = load_profile fmt (profile_table fmt p) /\
  (forall q, see n q <> Nothing -> q <> db ++ [ns; "generators"; "timer_gens"; (id ++ ".csv")%string]%string -> see n' q = see n q) /\
  (forall fmt' ls g other, other <> ns -> load_from_db fmt' ls g n' db other = load_from_db fmt' ls g n db other).
Proof.
  intros E. destruct (save_timer_stored _ _ _ _ _ _ _ E) as (A & B & K). split; [|split].
  - unfold load_timer_gen_config, read_csv. now rewrite (proj2 (read_see _ _ _) A).
  - intros q H1 H2. apply K; [exact H1|]. intros ->. apply H2. unfold timer_gens_folder, generators_folder, namespace_folder, csv_name.
    now rewrite <- !app_assoc.
  - intros fmt' ls g other N. apply (stored_other _ _ _ _ _ _ _ ns "timer_gens"%string); [congruence|exact B].
Qed.
Print Assumptions C124_timer_stored.

Theorem C124_empirical_stored fmt db ns id values dist n n' : save_empirical_generator fmt db ns id values dist n = (Ok tt, n') ->
  (exists tab, save_empirical fmt values dist = Ok tab /\
     forall g seed, load_empirical_generator g fmt n' db ns id seed = load_empirical g fmt tab seed) /\
  (forall q, see n q <> Nothing -> q <> db ++ [ns; "generators"; "empirical_discrete_gens"; (id ++ ".csv")%string]%string -> see n' q = see n q) /\
  (forall fmt' ls g other, other <> ns -> load_from_db fmt' ls g n' db other = load_from_db fmt' ls g n db other).
Proof.
  intros E. destruct (save_empirical_stored _ _ _ _ _ _ _ _ E) as (tab & T & A & B & K). split; [|split].
  - exists tab. split; [exact T|]. intros g seed. unfold load_empirical_generator, read_csv. now rewrite (proj2 (read_see _ _ _) A).
  - intros q H1 H2. apply K; [exact H1|]. intros ->. apply H2. unfold empirical_folder, generators_folder, namespace_folder, csv_name.
    now rewrite <- !app_assoc.
  - intros fmt' ls g other N. apply (stored_other _ _ _ _ _ _ _ ns "empirical_discrete_gens"%string); [congruence|exact B].
Qed.
Print Assumptions C124_empirical_stored.

(** But a circus saved in that namespace can no longer be loaded: every load_from_db raises. *)
Theorem C124_unloadable_timer fmt ls g db ns id p n n' : save_timer_gen fmt db ns id p n = (Ok tt, n') ->
  (forall l, Permutation (ls l) l) -> forall fmt' c, load_from_db fmt' ls g n' db ns <> Ok c.
Proof.
  intros E Hls fmt'. destruct (save_timer_stored _ _ _ _ _ _ _ E) as (A & _).
  apply (unloadable fmt' ls g n' db ns "timer_gens" (csv_name id) Hls); [discriminate|discriminate|].
  unfold timer_gens_folder in A. unfold gen_folder. rewrite A. discriminate.
Qed.
Print Assumptions C124_unloadable_timer.
Theorem C124_unloadable_empirical fmt ls g db ns id values dist n n' : save_empirical_generator fmt db ns id values dist n = (Ok tt, n') ->
  (forall l, Permutation (ls l) l) -> forall fmt' c, load_from_db fmt' ls g n' db ns <> Ok c.
Proof.
  intros E Hls fmt'. destruct (save_empirical_stored _ _ _ _ _ _ _ _ E) as (tab & _ & A & _).
  apply (unloadable fmt' ls g n' db ns "empirical_discrete_gens" (csv_name id) Hls); [discriminate|discriminate|].
  unfold empirical_folder in A. unfold gen_folder. rewrite A. discriminate.
Qed.
Print Assumptions C124_unloadable_empirical.

(** So a saved circus does not stay loadable. *)
Theorem C124_refuted : exists fmt ls g db c n n' n'' id p c',
  sane fmt /\ (forall l, Permutation (ls l) l) /\ save_to_db fmt db c false n = (Ok tt, n') /\
  load_from_db fmt ls g n' db (c_name c) = Ok c' /\
  save_timer_gen fmt db (c_name c) id p n' = (Ok tt, n'') /\
  forall c'', load_from_db fmt ls g n'' db (c_name c) <> Ok c''.
Proof.
  destruct C72_example as (n1 & c & E1 & E2 & _). rewrite bazaar_saved in E1. injection E1 as <-.
  pose (n2 := snd (save_timer_gen plain ["db"%string] "bazaar" "day" (mkProfile [1%Q; (1 # 2)%Q] 3600 86400) saved_bazaar)).
  assert (E : save_timer_gen plain ["db"%string] "bazaar" "day" (mkProfile [1%Q; (1 # 2)%Q] 3600 86400) saved_bazaar = (Ok tt, n2)).
  { assert (H : fst (save_timer_gen plain ["db"%string] "bazaar" "day" (mkProfile [1%Q; (1 # 2)%Q] 3600 86400) saved_bazaar) = Ok tt) by (vm_compute; reflexivity).
    unfold n2. destruct (save_timer_gen plain ["db"%string] "bazaar" "day" (mkProfile [1%Q; (1 # 2)%Q] 3600 86400) saved_bazaar) as [r m].
    cbn [fst snd] in *. now rewrite H. }
  exists plain, (fun l => l), stream, ["db"%string], bazaar, (Dir []), saved_bazaar, n2, "day"%string, (mkProfile [1%Q; (1 # 2)%Q] 3600 86400), c.
  split; [apply plain_sane|]. split; [intros l; apply Permutation_refl|]. split; [exact bazaar_saved|]. split; [exact E2|].
  split; [exact E|]. apply (C124_unloadable_timer plain (fun l => l) stream _ _ _ _ _ _ E). intros l. apply Permutation_refl.
Qed.
Print Assumptions C124_refuted.

(** ** C125.  Namespaces are created and removed one by one. *)
Theorem C125_created db ns n n' : create_namespace db ns n = (Ok tt, n') ->
  is_namespace_existing db ns n' = true /\
  (forall q, see n q <> Nothing -> see n' q = see n q) /\
  (forall other, other <> ns -> is_namespace_existing db other n' = is_namespace_existing db other n).
Proof.
  intros E. unfold create_namespace in E. apply sys_ok in E. destruct (PropCircus.C69_ensure_folder _ _ _ E) as (A & B & K).
  split; [now apply path_exists_see|]. split; [exact K|]. intros other N. unfold is_namespace_existing, path_exists.
  rewrite (ensure_lookup _ _ _ _ E); [reflexivity|].
  pose proof (namespaces_apart db ns other [] [] ltac:(congruence)) as H. now rewrite !app_nil_r in H.
Qed.
Print Assumptions C125_created.

Theorem C125_removed db ns n : exists n', remove_namespace db ns n = (Ok tt, n') /\
  is_namespace_existing db ns n' = false /\
  (forall r, see n' (db ++ ns :: r) = Nothing) /\
  (forall q, ~ at_or_below (db ++ [ns]) q -> see n' q = see n q) /\
  forall fmt ls g c, load_from_db fmt ls g n' db ns <> Ok c.
Proof.
  destruct (ensure_non_existing_spec n (namespace_folder db ns)) as (n' & E & A & B); [unfold namespace_folder; now destruct db|].
  exists n'. unfold remove_namespace, sys. rewrite E. split; [reflexivity|].
  assert (H : forall r, see n' (db ++ ns :: r) = Nothing).
  { intros r. apply A. exists r. unfold namespace_folder. now rewrite <- app_assoc. }
  split; [apply path_missing_see; unfold namespace_folder; apply H|]. split; [exact H|]. split; [exact B|].
  intros fmt ls g c L. unfold load_from_db, read_json in L. unfold namespace_folder in L. rewrite <- app_assoc in L. cbn [app] in L.
  specialize (H ["circus_config.json"%string]). unfold see in H. unfold read_file in L.
  destruct (lookup n' _) as [[x|es]|]; try discriminate.
Qed.
Print Assumptions C125_removed.

(** save_to_db without overwrite refuses an existing namespace and writes nothing. *)
Theorem C125_save_refused fmt db c n : is_namespace_existing db (c_name c) n = true ->
  save_to_db fmt db c false n = (Err OSError, n).
Proof.
  intros H. apply C73_refuses. now apply path_exists_see.
Qed.
Print Assumptions C125_save_refused.

Example C125_example : is_namespace_existing ["db"%string] "bazaar" saved_bazaar = true /\
  is_namespace_existing ["db"%string] "other" saved_bazaar = false /\
  exists n', create_namespace ["db"%string] "other" saved_bazaar = (Ok tt, n') /\
  exists n2, remove_namespace ["db"%string] "bazaar" n' = (Ok tt, n2) /\ is_namespace_existing ["db"%string] "other" n2 = true.
Proof.
  split; [vm_compute; reflexivity|]. split; [vm_compute; reflexivity|].
  exists (snd (create_namespace ["db"%string] "other" saved_bazaar)). split.
  { assert (H : fst (create_namespace ["db"%string] "other" saved_bazaar) = Ok tt) by (vm_compute; reflexivity).
    destruct (create_namespace ["db"%string] "other" saved_bazaar) as [r m]. cbn [fst snd] in *. now rewrite H. }
  destruct (C125_removed ["db"%string] "bazaar" (snd (create_namespace ["db"%string] "other" saved_bazaar))) as (n2 & E & _ & _ & K & _).
  exists n2. split; [exact E|]. apply path_exists_see. rewrite K; [vm_compute; discriminate|]. intros [r Hr]. discriminate.
Qed.
