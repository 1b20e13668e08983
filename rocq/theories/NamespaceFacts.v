(** Facts about what is stored in a namespace beside a circus. *)
From Coq Require Import Permutation.
From Verif Require Import Base BaseFacts Rng Utils UtilsFacts Relationship Frame Gens Clock Attribute World OpsFacts Circus Fs SpecFs FsFacts
  SpecWorld Persist SpecPersist PersistFacts PersistFs PersistTree PersistSave PersistLoad PersistCircus PersistMore Namespace.

(** ** What is neither above nor below is untouched, entry by entry *)
Definition apart (p q : path) : Prop := ~ at_or_above p q /\ ~ at_or_below p q.

Lemma apart_cons c p q : apart (c :: p) (c :: q) -> apart p q.
Proof.
  intros [A B]. split; intros [r E].
  - apply A. exists r. now rewrite E.
  - apply B. exists r. now rewrite E.
Qed.
Lemma apart_nil_l q : ~ apart [] q.
Proof. intros [_ B]. apply B. now exists q. Qed.
Lemma apart_nil_r p : ~ apart p [].
Proof. intros [A _]. apply A. now exists p. Qed.
Lemma apart_app d p q : apart p q -> apart (d ++ p) (d ++ q).
Proof.
  intros [A B]. split; intros [r E]; rewrite <- app_assoc in E; apply app_inv_head in E.
  - apply A. now exists r.
  - apply B. now exists r.
Qed.
Lemma apart_diff a b p q : a <> b -> apart (a :: p) (b :: q).
Proof. intros N. split; intros [r E]; injection E as E _; congruence. Qed.

Section Apart.
  Context {C : Type}.
  Lemma insert_lookup (m : node C) p : forall n n' q, insert_at n p m = Ok n' -> apart p q -> lookup n' q = lookup n q.
  Proof.
    induction p as [|c p IH]; intros n n' q E Ha; [easy|]. destruct n as [x|es]; [now destruct p|].
    destruct q as [|d q]; [now apply apart_nil_r in Ha|].
    destruct p as [|c' p].
    - injection E as <-. cbn [lookup]. rewrite dget_dset. destruct (keqb_spec d c) as [->|_]; [|reflexivity].
      exfalso. apply apart_cons in Ha. now apply apart_nil_l in Ha.
    - cbn [insert_at] in E. destruct (dget c es) as [k|] eqn:Ek; [|easy]. apply bind_ok in E as (k' & E1 & E2).
      injection E2 as <-. cbn [lookup]. rewrite dget_dset. destruct (keqb_spec d c) as [->|_]; [|reflexivity].
      rewrite Ek. apply (IH k k' q E1). now apply apart_cons in Ha.
  Qed.
  Lemma make_path_lookup p : forall (n n' : node C) q, make_path n p = Ok n' -> apart p q -> lookup n' q = lookup n q.
  Proof.
    induction p as [|c p IH]; intros n n' q E Ha; [now apply apart_nil_l in Ha|]. destruct n as [x|es]; [easy|].
    destruct q as [|d q]; [now apply apart_nil_r in Ha|]. cbn [make_path] in E. apply bind_ok in E as (k' & E1 & E2).
    injection E2 as <-. cbn [lookup]. rewrite dget_dset. destruct (keqb_spec d c) as [->|_]; [|reflexivity].
    apply apart_cons in Ha. rewrite (IH _ _ q E1 Ha). destruct (dget c es); [reflexivity|].
    destruct q; [now apply apart_nil_r in Ha|]. reflexivity.
  Qed.
End Apart.

Lemma write_lookup (n n' : node doc) p c q : write_file n p c = Ok n' -> apart p q -> lookup n' q = lookup n q.
Proof. unfold write_file. intros E. apply (insert_lookup (File c)). destruct (lookup n p) as [[x|es]|]; easy. Qed.

Lemma ensure_lookup (n n' : node doc) p q : ensure_folder_exists n p = Ok n' -> apart p q -> lookup n' q = lookup n q.
Proof.
  unfold ensure_folder_exists, os_makedirs. destruct (path_exists n p); intros E; [now injection E as <-|]. now apply make_path_lookup.
Qed.

(** ** Loading depends on what is found at the paths which are read *)
Definition agree_below (n n' : node doc) (dir : path) : Prop := forall q, lookup n (dir ++ q) = lookup n' (dir ++ q).

Lemma agree_at n n' p : lookup n p = lookup n' p -> agree_below n n' p.
Proof. intros E q. now rewrite !lookup_app, E. Qed.
Lemma agree_deeper n n' p q : agree_below n n' p -> agree_below n n' (p ++ q).
Proof. intros H r. rewrite <- !app_assoc. apply H. Qed.
Lemma agree_read_csv n n' p : agree_below n n' p -> read_csv n p = read_csv n' p.
Proof. intros H. specialize (H []). rewrite app_nil_r in H. unfold read_csv, read_file. now rewrite H. Qed.
Lemma agree_read_json n n' p : agree_below n n' p -> read_json n p = read_json n' p.
Proof. intros H. specialize (H []). rewrite app_nil_r in H. unfold read_json, read_file. now rewrite H. Qed.
Lemma agree_exists n n' p : agree_below n n' p -> path_exists n p = path_exists n' p.
Proof. intros H. specialize (H []). rewrite app_nil_r in H. unfold path_exists. now rewrite H. Qed.
Lemma agree_listed ls n n' p : agree_below n n' p -> listed_in ls n p = listed_in ls n' p.
Proof. intros H. specialize (H []). rewrite app_nil_r in H. unfold listed_in, listdir. now rewrite H. Qed.

Lemma bindM_ext {A B} (m m' : M A) (f f' : A -> M B) w : m w = m' w -> (forall a w1, f a w1 = f' a w1) ->
  bindM m f w = bindM m' f' w.
Proof. intros E H. unfold bindM. rewrite E. destruct (m' w) as [[a|e] w1]; [apply H|reflexivity]. Qed.
Lemma foreach_ext {A} (f f' : A -> M unit) l : (forall a w, f a w = f' a w) -> forall w, foreach f l w = foreach f' l w.
Proof.
  intros H. induction l as [|a l IH]; intros w; [reflexivity|]. cbn [foreach]. apply bindM_ext; [apply H|]. intros _ w1. apply IH.
Qed.

Lemma agree_load_attrs fmt n n' dir files : agree_below n n' dir ->
  forall acc w, load_attrs fmt n dir files acc w = load_attrs fmt n' dir files acc w.
Proof.
  intros H. induction files as [|f files IH]; intros acc w; [reflexivity|]. cbn [load_attrs].
  rewrite (agree_read_csv n n' (dir ++ [f])) by now apply agree_deeper.
  repeat (apply bindM_ext; [reflexivity|]; intros). apply IH.
Qed.
Lemma agree_load_rels fmt n n' dir files : agree_below n n' dir ->
  forall acc w, load_rels fmt n dir files acc w = load_rels fmt n' dir files acc w.
Proof.
  intros H. induction files as [|f files IH]; intros acc w; [reflexivity|]. cbn [load_rels].
  rewrite (agree_read_csv n n' (dir ++ [f])) by now apply agree_deeper.
  repeat (apply bindM_ext; [reflexivity|]; intros). apply IH.
Qed.
Lemma agree_load_pop fmt ls n n' folder w : agree_below n n' folder ->
  load_population_from fmt ls n folder w = load_population_from fmt ls n' folder w.
Proof.
  intros H. unfold load_population_from.
  rewrite (agree_read_csv n n' (folder ++ ["ids.csv"%string])) by now apply agree_deeper.
  rewrite (agree_exists n n' (folder ++ ["attributes"%string])) by now apply agree_deeper.
  rewrite (agree_exists n n' (folder ++ ["relationships"%string])) by now apply agree_deeper.
  rewrite (agree_listed ls n n' (folder ++ ["attributes"%string])) by now apply agree_deeper.
  rewrite (agree_listed ls n n' (folder ++ ["relationships"%string])) by now apply agree_deeper.
  apply bindM_ext; [reflexivity|]. intros tab w1. apply bindM_ext.
  { destruct (path_exists n' (folder ++ ["attributes"%string])); [|reflexivity]. apply bindM_ext; [reflexivity|].
    intros files w2. apply agree_load_attrs. now apply agree_deeper. }
  intros attrs w2. apply bindM_ext; [|reflexivity].
  destruct (path_exists n' (folder ++ ["relationships"%string])); [|reflexivity]. apply bindM_ext; [reflexivity|].
  intros files w3. apply agree_load_rels. now apply agree_deeper.
Qed.

Lemma mapr_ext_in {A B} (f g : A -> result B) l : (forall a, f a = g a) -> mapr f l = mapr g l.
Proof. intros H. induction l as [|a l IH]; [reflexivity|]. cbn [mapr]. now rewrite H, IH. Qed.

Lemma agree_load fmt ls g n n' db name :
  lookup n (namespace_folder db name ++ ["circus_config.json"%string]) = lookup n' (namespace_folder db name ++ ["circus_config.json"%string]) ->
  lookup n (populations_folder db name) = lookup n' (populations_folder db name) ->
  lookup n (generators_folder db name) = lookup n' (generators_folder db name) ->
  load_from_db fmt ls g n db name = load_from_db fmt ls g n' db name.
Proof.
  intros Hc Hp Hg. apply agree_at in Hc, Hp, Hg. unfold load_from_db.
  rewrite (agree_read_json n n' _ Hc). destruct (read_json n' _) as [j|e]; [|reflexivity]. cbn [bind].
  destruct j as [seed a b| | |]; try reflexivity.
  destruct (as_date fmt a) as [start|]; [|reflexivity]. cbn [bind]. destruct (as_span fmt b) as [step|]; [|reflexivity]. cbn [bind].
  assert (Elp : list_populations ls n db name = list_populations ls n' db name).
  { unfold list_populations. rewrite (agree_listed ls n n' _ Hp). destruct (listed_in ls n' _) as [names|]; [|reflexivity]. cbn [bind].
    f_equal. apply filter_ext. intros d. now rewrite (Hp [d]). }
  rewrite Elp. destruct (list_populations ls n' db name) as [pops|]; [|reflexivity]. cbn [bind].
  rewrite (foreach_ext (load_population fmt ls n db name) (load_population fmt ls n' db name)).
  2:{ intros x w. unfold load_population. apply bindM_ext; [|reflexivity]. apply agree_load_pop. unfold population_folder. now apply agree_deeper. }
  destruct (foreach (load_population fmt ls n' db name) pops _) as [[[]|] w1]; [|reflexivity].
  assert (Elg : list_generators ls n db name = list_generators ls n' db name).
  { unfold list_generators. rewrite (agree_exists n n' _ Hg). destruct (path_exists n' _); [|reflexivity].
    rewrite (agree_listed ls n n' _ Hg). destruct (listed_in ls n' (generators_folder db name)) as [types|]; [|reflexivity]. cbn [bind].
    f_equal. apply mapr_ext_in. intros t. now rewrite (agree_listed ls n n' (generators_folder db name ++ [t])) by now apply agree_deeper. }
  rewrite Elg. destruct (list_generators ls n' db name) as [gens|]; [|reflexivity]. cbn [bind].
  rewrite (foreach_ext (load_generator n db name) (load_generator n' db name)); [reflexivity|].
  intros x w. unfold load_generator. apply bindM_ext; [reflexivity|]. intros rs w2.
  assert (Egen : load_gen rs (fst x) n (gen_folder db name (fst x) ++ [json_name (snd x)]) =
                 load_gen rs (fst x) n' (gen_folder db name (fst x) ++ [json_name (snd x)])).
  { unfold load_gen. rewrite (agree_read_json n n'); [reflexivity|]. unfold gen_folder. rewrite <- app_assoc. now apply agree_deeper. }
  now rewrite Egen.
Qed.
