(** Properties of what is stored in a namespace beside a circus. *)
From Coq Require Import Permutation.
From Verif Require Import Base BaseFacts Rng Utils UtilsFacts Relationship Frame Gens Clock Attribute World OpsFacts Circus Fs SpecFs FsFacts
  SpecWorld Persist SpecPersist PersistFacts PersistFs PersistTree PersistSave PersistLoad PersistCircus PersistMore CircusFacts Namespace NamespaceFacts.

Lemma sys_ok f n r n' : sys f n = (Ok r, n') -> f n = Ok n'.
Proof. unfold sys. destruct (f n); intros E; [now injection E as <- <-|easy]. Qed.
Lemma bindF_ok {A B} (m : F A) (f : A -> F B) n r n' : bindF m f n = (Ok r, n') -> exists a n1, m n = (Ok a, n1) /\ f a n1 = (Ok r, n').
Proof. unfold bindF. destruct (m n) as [[a|e] n1]; intros E; [eauto|easy]. Qed.

Lemma params_name_head ty : exists s, params_name ty = String "p" (String "a" s).
Proof. unfold params_name. cbn. eauto. Qed.

Lemma namespaces_apart db a b p q : a <> b -> apart (namespace_folder db a ++ p) (namespace_folder db b ++ q).
Proof.
  intros N. unfold namespace_folder. rewrite <- !app_assoc. apply apart_app. now apply apart_diff.
Qed.
Lemma items_apart db ns a b p q : a <> b -> apart (namespace_folder db ns ++ a :: p) (namespace_folder db ns ++ b :: q).
Proof. intros N. apply apart_app. now apply apart_diff. Qed.

(** Something written below an entry of the namespace which is not one of those read. *)
Lemma load_unaffected fmt ls g n n' db name x p :
  (forall q, apart (namespace_folder db name ++ x :: p) q -> lookup n' q = lookup n q) ->
  x <> "circus_config.json"%string -> x <> "populations"%string -> x <> "generators"%string ->
  load_from_db fmt ls g n' db name = load_from_db fmt ls g n db name.
Proof.
  intros H N1 N2 N3. apply agree_load; apply H; unfold populations_folder, generators_folder; apply items_apart; assumption.
Qed.
Lemma load_other fmt ls g n n' db name other p : other <> name ->
  (forall q, apart (namespace_folder db other ++ p) q -> lookup n' q = lookup n q) ->
  load_from_db fmt ls g n' db name = load_from_db fmt ls g n db name.
Proof.
  intros N H. apply agree_load; apply H; unfold populations_folder, generators_folder; now apply namespaces_apart.
Qed.

Lemma save_params_lookup db name ty text n n' : save_params_to_db db name ty text n = (Ok tt, n') ->
  forall q, apart (namespace_folder db name ++ [params_name ty]) q -> lookup n' q = lookup n q.
Proof. intros E q Ha. unfold save_params_to_db in E. apply sys_ok in E. eapply write_lookup; eauto. Qed.

Lemma save_params_see db name ty text n n' : save_params_to_db db name ty text n = (Ok tt, n') ->
  see n' (namespace_folder db name ++ [params_name ty]) = AFile (Json (JParams text)) /\
  (forall q, q <> namespace_folder db name ++ [params_name ty] -> see n' q = see n q).
Proof. intros E. unfold save_params_to_db in E. apply sys_ok in E. now apply write_see in E. Qed.

Lemma save_params_loads fmt ls g db name ty text n n' : save_params_to_db db name ty text n = (Ok tt, n') ->
  forall other, load_from_db fmt ls g n' db other = load_from_db fmt ls g n db other.
Proof.
  intros E other. pose proof (save_params_lookup _ _ _ _ _ _ E) as H. destruct (string_dec name other) as [<-|N].
  - apply (load_unaffected _ _ _ _ _ _ _ (params_name ty) []); [exact H| | |]; destruct (params_name_head ty) as [s ->]; discriminate.
  - eapply load_other; [exact N|]. exact H.
Qed.

Lemma save_params_ok db name ty text n :
  (exists n', save_params_to_db db name ty text n = (Ok tt, n')) <->
  see n (namespace_folder db name) = ADir /\ see n (namespace_folder db name ++ [params_name ty]) <> ADir.
Proof.
  split.
  - intros [n' E]. unfold save_params_to_db in E. apply sys_ok in E. pose proof (write_see _ _ _ _ E) as (A & B & C). split; [|exact A].
    pose proof (see_above n' (namespace_folder db name) [params_name ty]) as D. rewrite <- C.
    + apply D; [|easy]. rewrite B. discriminate.
    + intros X. apply (f_equal (@length string)) in X. rewrite app_length in X. cbn in X. lia.
  - intros [A B]. destruct (write_total n (namespace_folder db name) (params_name ty) (Json (JParams text)) A B) as [n' E].
    exists n'. unfold save_params_to_db, sys. now rewrite E.
Qed.

(** ** What a computation does not touch *)
Definition keeps {A} (q : path) (m : F A) : Prop := forall n r n', m n = (r, n') -> see n' q = see n q.

Lemma keeps_ret {A} q (a : A) : keeps q (retF a).
Proof. intros n r n' E. now injection E as _ <-. Qed.
Lemma keeps_raise {A} q e : keeps q (raiseF (A := A) e).
Proof. intros n r n' E. now injection E as _ <-. Qed.
Lemma keeps_bind {A B} q (m : F A) (f : A -> F B) : keeps q m -> (forall a, keeps q (f a)) -> keeps q (bindF m f).
Proof.
  intros Hm Hf n r n' E. unfold bindF in E. destruct (m n) as [[a|e] n1] eqn:E1.
  - rewrite (Hf _ _ _ _ E). now apply Hm in E1.
  - injection E as _ <-. now apply Hm in E1.
Qed.
Lemma keeps_foreach {A} q (f : A -> F unit) l : (forall a, keeps q (f a)) -> keeps q (foreachF f l).
Proof. intros H. induction l as [|a l IH]; [apply keeps_ret|]. cbn [foreachF]. apply keeps_bind; auto. Qed.
Lemma keeps_sys q f : (forall n n', f n = Ok n' -> see n' q = see n q) -> keeps q (sys f).
Proof. intros H n r n' E. unfold sys in E. destruct (f n) eqn:Ef; injection E as _ <-; auto. Qed.

Lemma keeps_write q p c : apart p q -> keeps q (sys (fun n => write_file n p c)).
Proof. intros Ha. apply keeps_sys. intros n n' E. unfold see. now rewrite (write_lookup _ _ _ _ _ E Ha). Qed.
Lemma keeps_ensure q p : apart p q -> keeps q (sys (fun n => ensure_folder_exists n p)).
Proof. intros Ha. apply keeps_sys. intros n n' E. unfold see. now rewrite (ensure_lookup _ _ _ _ E Ha). Qed.
Lemma keeps_makedirs q p : apart p q -> keeps q (sys (fun n => os_makedirs n p)).
Proof.
  intros Ha. apply keeps_sys. intros n n' E. unfold os_makedirs in E. destruct (path_exists n p); [easy|].
  unfold see. now rewrite (make_path_lookup _ _ _ _ E Ha).
Qed.
Lemma keeps_mkdir q p : apart p q -> keeps q (sys (fun n => os_mkdir n p)).
Proof.
  intros Ha. apply keeps_sys. intros n n' E. unfold os_mkdir in E. destruct (path_exists n p); [easy|].
  unfold see. now rewrite (insert_lookup _ _ _ _ _ E Ha).
Qed.
Lemma keeps_remove q p : p <> [] -> apart p q -> keeps q (sys (fun n => ensure_non_existing_dir n p)).
Proof.
  intros Hp Ha. apply keeps_sys. intros n n' E. destruct (ensure_non_existing_spec n p Hp) as (n1 & E1 & _ & H).
  rewrite E in E1. injection E1 as <-. apply H. apply Ha.
Qed.

Lemma keeps_population fmt w po folder q : folder <> [] -> (forall r, apart (folder ++ r) q) -> keeps q (save_population fmt w po folder).
Proof.
  intros Hf Ha. assert (Ha0 : apart folder q) by (rewrite <- (app_nil_r folder); apply Ha). unfold save_population.
  repeat (apply keeps_bind; [|intros _]).
  - now apply keeps_remove.
  - now apply keeps_makedirs.
  - apply keeps_write. apply Ha.
  - destruct (p_attrs po) as [|x l]; [apply keeps_ret|]. apply keeps_bind; [apply keeps_mkdir; apply Ha|]. intros _.
    apply keeps_foreach. intros y. unfold write_attr. destruct (nth_error _ _); [|apply keeps_raise]. apply keeps_write.
    rewrite <- app_assoc. apply Ha.
  - destruct (p_rels po) as [|x l]; [apply keeps_ret|]. apply keeps_bind; [apply keeps_mkdir; apply Ha|]. intros _.
    apply keeps_foreach. intros y. unfold write_rel. destruct (nth_error _ _); [|apply keeps_raise]. apply keeps_write.
    rewrite <- app_assoc. apply Ha.
Qed.

Lemma keeps_content fmt db c x r : x <> "circus_config.json"%string -> x <> "populations"%string -> x <> "generators"%string ->
  keeps (namespace_folder db (c_name c) ++ x :: r)
    (do _ := sys (fun n => write_file n (namespace_folder db (c_name c) ++ ["circus_config.json"%string])
                          (Json (JConfig (c_master_seed c) (show_date fmt (c_start c)) (show_span fmt (Persist.c_step c))))) in
     do _ := foreachF (save_pop_item fmt db c) (w_pop_names (c_world c)) in
     foreachF (save_gen_item db c) (w_gen_names (c_world c))).
Proof.
  intros N1 N2 N3. repeat (apply keeps_bind; [|intros _]).
  - apply keeps_write. apply items_apart. congruence.
  - apply keeps_foreach. intros y. unfold save_pop_item. destruct (nth_error _ _); [|apply keeps_raise]. apply keeps_population.
    + unfold population_folder. intros E. now apply app_eq_nil in E.
    + intros q. unfold population_folder, populations_folder. rewrite <- !app_assoc. apply items_apart. congruence.
  - apply keeps_foreach. intros y. unfold save_gen_item. destruct (nth_error _ _) as [g|]; [|apply keeps_raise]. unfold save_generator.
    cbv zeta. apply keeps_bind; [|intros _].
    + apply keeps_ensure. unfold gen_folder, generators_folder. rewrite <- !app_assoc. apply items_apart. congruence.
    + destruct (gen_json g); [|apply keeps_raise]. apply keeps_write. unfold gen_folder, generators_folder. rewrite <- !app_assoc.
      apply items_apart. congruence.
Qed.

Lemma save_forgets fmt db c ow n n' x r : save_to_db fmt db c ow n = (Ok tt, n') ->
  x <> "circus_config.json"%string -> x <> "populations"%string -> x <> "generators"%string ->
  see n' (namespace_folder db (c_name c) ++ x :: r) = Nothing.
Proof.
  intros E N1 N2 N3. rewrite save_to_db_split in E. apply bindF_ok in E as ([] & n1 & E1 & E2).
  destruct (clear_namespace_ok _ _ _ _ (namespace_not_root db (c_name c)) E1) as (L & _).
  rewrite (keeps_content fmt db c x r N1 N2 N3 _ _ _ E2). unfold see. now rewrite lookup_app, L.
Qed.

(** ** Timer profiles and empirical generators *)
Lemma stored_below n n' folder file c :
  (do _ := sys (fun n => ensure_folder_exists n folder) in sys (fun n => write_file n (folder ++ [file]) c)) n = (Ok tt, n') ->
  see n' (folder ++ [file]) = AFile c /\
  (forall q, apart folder q -> lookup n' q = lookup n q) /\
  (forall q, see n q <> Nothing -> q <> folder ++ [file] -> see n' q = see n q).
Proof.
  intros E. apply bindF_ok in E as ([] & n1 & E1 & E2). apply sys_ok in E1, E2.
  pose proof (write_see _ _ _ _ E2) as (_ & B & K). split; [exact B|]. split.
  - intros q Ha. rewrite (write_lookup _ _ _ _ _ E2).
    + now apply (ensure_lookup _ _ _ _ E1).
    + destruct Ha as [A1 A2]. split.
      * intros [r Hr]. destruct r as [|x r] using rev_ind.
        -- apply A2. exists [file]. now rewrite app_nil_r in Hr.
        -- rewrite app_assoc in Hr. apply app_inj_tail in Hr as [Hr _]. apply A1. now exists r.
      * intros [r Hr]. apply A2. exists (file :: r). now rewrite Hr, <- app_assoc.
  - intros q Hq Hne. rewrite K by exact Hne. unfold ensure_folder_exists in E1. destruct (path_exists n folder); [now injection E1 as <-|].
    pose proof (makedirs_through _ _ _ E1) as T. apply makedirs_see in E1 as (A & D1 & D2).
    destruct (above_dec folder q) as [U|U]; [|now apply D2]. rewrite D1 by exact U.
    destruct (see n q) eqn:Es; [easy|now apply T in Es|easy].
Qed.

Lemma foreach_in {A} (f : A -> M unit) l : forall w w', foreach f l w = (Ok tt, w') ->
  forall x, In x l -> exists w1 w2, f x w1 = (Ok tt, w2).
Proof.
  induction l as [|a l IH]; intros w w' E x Hx; [easy|]. cbn [foreach] in E. apply bindM_ok in E as ([] & w1 & E1 & E2).
  destruct Hx as [->|Hx]; [eauto|]. eapply IH; eauto.
Qed.

Lemma listed_in_spec ls (n : node doc) p : (forall l, Permutation (ls l) l) -> see n p = ADir ->
  exists names, listed_in ls n p = Ok names /\ forall x, In x names <-> see n (p ++ [x]) <> Nothing.
Proof.
  intros Hls Hp. unfold listed_in, listdir, see in *. destruct (lookup n p) as [[c|es]|] eqn:L; try easy. cbn [bind].
  eexists. split; [reflexivity|]. intros x. rewrite lookup_app, L. cbn [lookup].
  assert (Hd : In x (ls (dkeys es)) <-> In x (dkeys es)).
  { split; apply Permutation_in; [apply Hls|apply Permutation_sym, Hls]. }
  rewrite Hd. destruct (dget x es) as [m|] eqn:E.
  - apply dget_In in E. split; [destruct m; easy|]. intros _. unfold dkeys. apply in_map_iff. now exists (x, m).
  - apply dget_None in E. split; [contradiction|easy].
Qed.

(** A folder of generators which is not that of a loadable class makes the circus unloadable. *)
Lemma unloadable fmt ls g n db name type file : (forall l, Permutation (ls l) l) ->
  type <> "NumpyRandomGenerator"%string -> type <> "SequencialGenerator"%string ->
  see n (gen_folder db name type ++ [file]) <> Nothing ->
  forall c, load_from_db fmt ls g n db name <> Ok c.
Proof.
  intros Hls N1 N2 Hs c E. unfold load_from_db in E. apply bind_ok in E as (j & _ & E). destruct j; try easy.
  apply bind_ok in E as (st0 & _ & E). apply bind_ok in E as (sp0 & _ & E). apply bind_ok in E as (pops & _ & E).
  destruct (foreach (load_population fmt ls n db name) pops _) as [[[]|] w1]; [|easy].
  apply bind_ok in E as (gens & Eg & E).
  destruct (foreach (load_generator n db name) gens w1) as [[[]|] w2] eqn:Ef; [|easy]. clear E.
  assert (Ht : see n (gen_folder db name type) = ADir) by (apply (see_above _ _ [file]); [exact Hs|easy]).
  assert (Hg : see n (generators_folder db name) = ADir).
  { apply (see_above _ _ [type]); [|easy]. unfold gen_folder in Ht. now rewrite Ht. }
  assert (Hin : In (type, before_dot file) gens).
  { unfold list_generators in Eg. rewrite (proj2 (path_exists_see _ _)) in Eg by now rewrite Hg.
    destruct (listed_in_spec ls n _ Hls Hg) as (types & E1 & H1). rewrite E1 in Eg. cbn [bind] in Eg.
    apply bind_ok in Eg as (found & E2 & E3). injection E3 as <-.
    assert (Hty : In type types) by (apply H1; unfold gen_folder in Ht; now rewrite Ht).
    apply mapr_ok_Forall2 in E2. clear -E2 Hty Ht Hs Hls. induction E2 as [|t x types found Hx F IH]; [easy|].
    cbn [concat]. apply in_or_app. destruct Hty as [->|Hty]; [left|right; now apply IH].
    destruct (listed_in_spec ls n _ Hls Ht) as (files & E1 & H1). unfold gen_folder in E1. rewrite E1 in Hx. cbn [bind] in Hx.
    injection Hx as <-. apply in_map_iff. exists file. split; [reflexivity|]. apply H1. exact Hs. }
  destruct (foreach_in _ _ _ _ Ef _ Hin) as (w3 & w4 & Ew). unfold load_generator in Ew.
  apply bindM_ok in Ew as (rs & w5 & _ & Ew). apply bindM_ok in Ew as (gen & w6 & Ew & _). apply lift_ok in Ew as [Ew _].
  cbn [fst] in Ew. unfold load_gen in Ew. destruct (keqb_spec type "NumpyRandomGenerator"%string); [contradiction|].
  destruct (keqb_spec type "SequencialGenerator"%string); [contradiction|]. discriminate.
Qed.

Lemma save_timer_stored fmt db ns id p n n' : save_timer_gen fmt db ns id p n = (Ok tt, n') ->
  see n' (timer_gens_folder db ns ++ [csv_name id]) = AFile (Csv (profile_table fmt p)) /\
  (forall q, apart (timer_gens_folder db ns) q -> lookup n' q = lookup n q) /\
  (forall q, see n q <> Nothing -> q <> timer_gens_folder db ns ++ [csv_name id] -> see n' q = see n q).
Proof. intros E. apply stored_below. exact E. Qed.
Lemma save_empirical_stored fmt db ns id values dist n n' : save_empirical_generator fmt db ns id values dist n = (Ok tt, n') ->
  exists tab, save_empirical fmt values dist = Ok tab /\
  see n' (empirical_folder db ns ++ [csv_name id]) = AFile (Csv tab) /\
  (forall q, apart (empirical_folder db ns) q -> lookup n' q = lookup n q) /\
  (forall q, see n q <> Nothing -> q <> empirical_folder db ns ++ [csv_name id] -> see n' q = see n q).
Proof.
  unfold save_empirical_generator. destruct (save_empirical fmt values dist) as [tab|]; [|easy]. intros E. exists tab.
  split; [reflexivity|]. apply stored_below. exact E.
Qed.

Lemma stored_other fmt ls g n n' db name other x : other <> name ->
  (forall q, apart (generators_folder db other ++ [x]) q -> lookup n' q = lookup n q) ->
  load_from_db fmt ls g n' db name = load_from_db fmt ls g n db name.
Proof.
  intros N H. apply (load_other _ _ _ _ _ _ _ other (["generators"%string] ++ [x])); [exact N|].
  intros q Hq. apply H. unfold generators_folder. now rewrite <- app_assoc.
Qed.
