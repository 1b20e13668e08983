(** Saving and loading a whole circus. *)
From Verif Require Import Base BaseFacts Rng Utils UtilsFacts AttributeFacts Relationship SpecRelationship Frame Gens Clock Attribute World Circus Fs SpecFs FsFacts
  Persist SpecPersist PersistFacts PersistRel PersistFs PersistTree PersistSave PersistLoad.

(** ** Saving *)
Lemma make_path_lookup {C} (n : node C) p n' : make_path n p = Ok n' -> lookup n p = None -> lookup n' p = Some (Dir []).
Proof.
  revert n n'; induction p as [|c p IH]; intros n n' E L; [easy|].
  destruct n as [x|es]; [easy|]. cbn [make_path] in E. apply bind_ok in E as (k & Ek & E). injection E as <-.
  cbn [lookup] in L |- *. rewrite dget_dset, keqb_refl. destruct (dget c es) as [m|].
  - now apply (IH m).
  - destruct p as [|c' p]; [now injection Ek as <-|]. now apply (IH (Dir [])).
Qed.

Lemma clean_ok fmt c : clean_circus fmt c -> circus_ok (c_world c).
Proof.
  intros [_ Np Hp Ng Hg _ _]. split; [|split; [exact Np|split; [|exact Ng]]].
  - intros [name p] H. destruct (Hp name p H) as (po & E & Hc). exists po. split; [exact E|]. eapply clean_pop_ok; eauto.
  - intros [id k] H. destruct (Hg id k H) as (_ & x & E & _). eauto.
Qed.

Lemma savable_json x : savable x -> exists j, gen_json x = Ok j.
Proof. destruct x; cbn; try easy; eauto. Qed.

Lemma In_named w id x : In (id, x) (named_gens w) <-> exists k, In (id, k) (w_gen_names w) /\ nth_error (w_gens w) k = Some x.
Proof.
  unfold named_gens. rewrite in_flat_map. split.
  - intros ([id' k] & H1 & H2). cbn in H2. destruct (nth_error (w_gens w) k) eqn:E; [|easy].
    destruct H2 as [[= <- <-]|[]]. eauto.
  - intros (k & H1 & H2). exists (id, k). split; [exact H1|]. cbn. rewrite H2. now left.
Qed.

Lemma clean_savable fmt c x : clean_circus fmt c -> In x (named_gens (c_world c)) -> savable (snd x) /\ no_dot (fst x).
Proof.
  intros H Hx. destruct x as [id x]. apply In_named in Hx as (k & H1 & H2).
  destruct (clean_generators _ _ H id k H1) as (Hd & x' & E & Hs). rewrite E in H2. injection H2 as <-. easy.
Qed.

(** the first part of save_to_db: an empty namespace *)
Definition clear_namespace (folder : path) (overwrite : bool) : F unit :=
  do _ := (fun n => if path_exists n folder then
                      if overwrite then sys (fun n => ensure_non_existing_dir n folder) n
                      else (Err OSError, n)
                    else (Ok tt, n)) in
  sys (fun n => ensure_folder_exists n folder).

Definition save_content (fmt : text_format) (db : path) (c : circus) : F unit :=
  do _ := sys (fun n => write_file n (namespace_folder db (c_name c) ++ ["circus_config.json"%string])
                          (Json (JConfig (c_master_seed c) (show_date fmt (c_start c)) (show_span fmt (c_step c))))) in
  do _ := foreachF (save_pop_item fmt db c) (w_pop_names (c_world c)) in
  foreachF (save_gen_item db c) (w_gen_names (c_world c)).

Lemma bindF_assoc {A B C} (m : F A) (f : A -> F B) (k : B -> F C) n :
  bindF (bindF m f) k n = bindF m (fun a => bindF (f a) k) n.
Proof. unfold bindF. destruct (m n) as [[a|e] n']; easy. Qed.

Lemma save_to_db_split fmt db c ow n : save_to_db fmt db c ow n =
  (do _ := clear_namespace (namespace_folder db (c_name c)) ow in save_content fmt db c) n.
Proof.
  unfold clear_namespace. rewrite bindF_assoc. reflexivity.
Qed.

Lemma namespace_not_root db name : namespace_folder db name <> [].
Proof. unfold namespace_folder. destruct db; easy. Qed.

Lemma clear_namespace_see folder ow n : folder <> [] ->
  (forall q x, at_or_above folder q -> q <> folder -> see n q <> AFile x) -> (ow = true \/ see n folder = Nothing) ->
  exists n1, clear_namespace folder ow n = (Ok tt, n1) /\ lookup n1 folder = Some (Dir []) /\
    (forall q, at_or_above folder q -> see n1 q = ADir) /\
    (forall q, ~ at_or_below folder q -> ~ at_or_above folder q -> see n1 q = see n q).
Proof.
  intros Hne Hf Ho. unfold clear_namespace.
  assert (H1 : exists n0, (if path_exists n folder then
                      if ow then sys (fun n => ensure_non_existing_dir n folder) n
                      else (Err OSError, n)
                    else (Ok tt, n)) = (Ok tt, n0) /\ see n0 folder = Nothing /\
               forall q, ~ at_or_below folder q -> see n0 q = see n q).
  { destruct (path_exists n folder) eqn:Ex.
    - destruct Ho as [->|Hn].
      + destruct (ensure_non_existing_spec n folder Hne) as (n0 & E & Hin & Hout). unfold sys. rewrite E. exists n0.
        split; [easy|]. split; [|exact Hout]. apply Hin. exists []. now rewrite app_nil_r.
      + apply path_exists_see in Ex. contradiction.
    - exists n. split; [easy|]. split; [|easy]. now apply path_missing_see. }
  destruct H1 as (n0 & E0 & Hn0 & Hout).
  assert (Hab : forall q, at_or_above folder q -> q <> folder -> ~ at_or_below folder q).
  { intros q [r Hr] Hq [s Hs]. subst q. apply Hq. rewrite <- app_assoc in Hr.
    rewrite <- (app_nil_r folder) in Hr at 1. apply app_inv_head in Hr. symmetry in Hr. apply app_eq_nil in Hr as [-> _]. apply app_nil_r. }
  assert (Hm : exists n1, os_makedirs n0 folder = Ok n1).
  { unfold os_makedirs. assert (Ex : path_exists n0 folder = false).
    { destruct (path_exists n0 folder) eqn:Ex; [|easy]. apply path_exists_see in Ex. contradiction. }
    rewrite Ex. apply make_path_total. intros q x Hq Hqn. rewrite Hout by auto. now apply Hf. }
  destruct Hm as (n1 & E1). exists n1. destruct (makedirs_see _ _ _ E1) as (_ & H2 & H3).
  assert (Ex : path_exists n0 folder = false).
  { destruct (path_exists n0 folder) eqn:Ex; [|easy]. apply path_exists_see in Ex. contradiction. }
  split; [|split; [|split]].
  - unfold bindF. rewrite E0. unfold sys, ensure_folder_exists. now rewrite Ex, E1.
  - unfold os_makedirs in E1. rewrite Ex in E1. eapply make_path_lookup; [exact E1|].
    unfold path_exists in Ex. now destruct (lookup n0 folder).
  - exact H2.
  - intros q Hb Ha. rewrite H3 by exact Ha. now apply Hout.
Qed.

(** Nothing outside the namespace changes, whatever the outcome. *)
Lemma clear_namespace_ok folder ow n n1 : folder <> [] -> clear_namespace folder ow n = (Ok tt, n1) ->
  lookup n1 folder = Some (Dir []) /\
    (forall q, ~ at_or_below folder q -> ~ at_or_above folder q -> see n1 q = see n q) /\
    (forall q, at_or_above folder q -> see n1 q = ADir).
Proof.
  intros Hne E.
  assert (Ho : ow = true \/ see n folder = Nothing).
  { destruct ow; [now left|]. right. unfold clear_namespace, bindF in E. destruct (path_exists n folder) eqn:Ex; [easy|].
    now apply path_missing_see. }
  assert (Hf : forall q x, at_or_above folder q -> q <> folder -> see n q <> AFile x).
  { intros q x Hq Hqn. unfold clear_namespace, bindF in E.
    assert (Hab : ~ at_or_below folder q).
    { destruct Hq as [r Hr]. intros [s Hs]. subst q. apply Hqn. rewrite <- app_assoc in Hr.
      rewrite <- (app_nil_r folder) in Hr at 1. apply app_inv_head in Hr. symmetry in Hr. apply app_eq_nil in Hr as [-> _]. apply app_nil_r. }
    assert (Hex : forall m, path_exists m folder = false -> sys (fun n => ensure_folder_exists n folder) m = (Ok tt, n1) -> see m q <> AFile x).
    { intros m Em. unfold sys, ensure_folder_exists. rewrite Em. destruct (os_makedirs m folder) as [m1|] eqn:E1; [|easy].
      intros _. eapply makedirs_through; eauto. }
    destruct (path_exists n folder) eqn:Ex.
    - destruct ow; [|easy]. destruct (ensure_non_existing_spec n folder Hne) as (n0 & E0 & Hin & Hout).
      unfold sys at 1 in E. rewrite E0 in E. rewrite <- (Hout q Hab). apply Hex; [|exact E].
      destruct (path_exists n0 folder) eqn:Ex0; [|easy]. apply path_exists_see in Ex0. exfalso. apply Ex0.
      apply Hin. exists []. now rewrite app_nil_r.
    - apply Hex; [exact Ex|exact E]. }
  destruct (clear_namespace_see folder ow n Hne Hf Ho) as (n1' & E' & H1 & H2 & H3).
  rewrite E in E'. injection E' as <-. auto.
Qed.

Lemma save_content_tree fmt db c n1 : clean_circus fmt c -> lookup n1 (namespace_folder db (c_name c)) = Some (Dir []) ->
  save_content fmt db c n1 = (Ok tt, graft n1 (namespace_folder db (c_name c)) (circus_tree fmt c)).
Proof.
  intros H L. apply save_rest_tree; [eapply clean_ok; eauto| |exact L].
  intros x Hx. apply savable_json. eapply clean_savable; eauto.
Qed.

Lemma save_ok fmt db c ow n : clean_circus fmt c ->
  let folder := namespace_folder db (c_name c) in
  (forall q x, at_or_above folder q -> q <> folder -> see n q <> AFile x) -> (ow = true \/ see n folder = Nothing) ->
  exists n', save_to_db fmt db c ow n = (Ok tt, n').
Proof.
  intros H folder Hf Ho. rewrite save_to_db_split.
  destruct (clear_namespace_see folder ow n (namespace_not_root _ _) Hf Ho) as (n1 & E & L & _).
  unfold bindF. fold folder. rewrite E. rewrite save_content_tree by assumption. eauto.
Qed.

Lemma save_lookup fmt db c ow n n' : clean_circus fmt c -> save_to_db fmt db c ow n = (Ok tt, n') ->
  let folder := namespace_folder db (c_name c) in
  lookup n' folder = Some (circus_tree fmt c) /\
  (forall q, ~ at_or_below folder q -> ~ at_or_above folder q -> see n' q = see n q) /\
  (forall q, at_or_above folder q -> see n' q = ADir).
Proof.
  intros H E folder. rewrite save_to_db_split in E. unfold bindF in E. fold folder in E.
  destruct (clear_namespace folder ow n) as [[[]|e] n1] eqn:E1; [|easy].
  destruct (clear_namespace_ok folder ow n n1 (namespace_not_root _ _) E1) as (L & Hout & Hab).
  rewrite save_content_tree in E by assumption. injection E as <-. fold folder.
  destruct (graft_see n1 folder (circus_tree fmt c) _ L) as [Hin Hout2].
  split; [|split].
  - eapply lookup_graft; eauto.
  - intros q Hb Ha. rewrite Hout2 by exact Hb. now apply Hout.
  - intros q [r Hr]. destruct r as [|c0 r].
    + rewrite app_nil_r in Hr. subst q. specialize (Hin []). rewrite app_nil_r in Hin. now rewrite Hin.
    + rewrite Hout2; [apply Hab; now exists (c0 :: r)|]. intros [s Hs]. subst q. rewrite <- app_assoc in Hr.
      rewrite <- (app_nil_r folder) in Hr at 1. apply app_inv_head in Hr. symmetry in Hr. apply app_eq_nil in Hr as [_ Hr]. easy.
Qed.

(** ** Loading populations *)
Record loaded (g : prng) (w : world) (po : pop) (w' : world) (po' : pop) : Prop := {
  l_same : same_population w po w' po';
  l_fresh : fresh_relationships g w' po';
  l_attrs : forall name k, dget name (p_attrs po') = Some k -> k < length (w_attrs w');
  l_rels : forall name k, dget name (p_rels po') = Some k -> k < length (w_rels w')
}.

Lemma loaded_grown g w po w1 w2 po' : loaded g w po w1 po' -> grown w1 w2 -> loaded g w po w2 po'.
Proof.
  intros [[S1 S2 S3 S4] Hf Ha Hr] G. destruct (grown_attrs _ _ G) as [la Ea]. destruct (grown_rels _ _ G) as [lr Er].
  assert (Ja : forall name, attribute_of w2 po' name = attribute_of w1 po' name).
  { intros name. unfold attribute_of. destruct (dget name (p_attrs po')) as [k|] eqn:E; [|easy].
    rewrite Ea. apply nth_error_app1. eauto. }
  assert (Jr : forall name, relationship_of w2 po' name = relationship_of w1 po' name).
  { intros name. unfold relationship_of. destruct (dget name (p_rels po')) as [k|] eqn:E; [|easy].
    rewrite Er. apply nth_error_app1. eauto. }
  split.
  - split; [exact S1|exact S2| |].
    + intros name. rewrite Ja. apply S3.
    + intros name. rewrite Jr. apply S4.
  - intros name r. rewrite Jr. apply Hf.
  - intros name k E. rewrite Ea, app_length. specialize (Ha name k E). lia.
  - intros name k E. rewrite Er, app_length. specialize (Hr name k E). lia.
Qed.

Lemma loaded_names g w po w1 w2 po' : w_attrs w2 = w_attrs w1 -> w_rels w2 = w_rels w1 ->
  loaded g w po w1 po' -> loaded g w po w2 po'.
Proof.
  intros Ea Er [[S1 S2 S3 S4] Hf Ha Hr].
  assert (Ja : forall name, attribute_of w2 po' name = attribute_of w1 po' name) by (intros; unfold attribute_of; now rewrite Ea).
  assert (Jr : forall name, relationship_of w2 po' name = relationship_of w1 po' name) by (intros; unfold relationship_of; now rewrite Er).
  split.
  - split; [exact S1|exact S2| |].
    + intros name. rewrite Ja. apply S3.
    + intros name. rewrite Jr. apply S4.
  - intros name r. rewrite Jr. apply Hf.
  - intros name k E. rewrite Ea. eauto.
  - intros name k E. rewrite Er. eauto.
Qed.

Lemma load_pop_loaded fmt ls n folder w po : sane fmt -> (forall l, Permutation (ls l) l) ->
  clean_population fmt w po -> lookup n folder = Some (pop_tree fmt w po) ->
  forall w0, exists w1 po',
    load_population_from fmt ls n folder w0 = (Ok (length (w_pops w0)), w1) /\
    grown w0 w1 /\ w_pops w1 = w_pops w0 ++ [po'] /\ w_gens w1 = w_gens w0 /\
    w_pop_names w1 = w_pop_names w0 /\ w_gen_names w1 = w_gen_names w0 /\ loaded (w_prng w0) w po w1 po'.
Proof.
  intros Hs Hls Hc L w0.
  destruct (load_population_spec fmt ls n folder w po Hs Hls Hc L w0) as (w1 & po' & E & G & Ep & Eg & En & Eg' & Hsame & Ba & Br & Hst).
  exists w1, po'. split; [exact E|]. split; [exact G|]. split; [exact Ep|]. split; [exact Eg|]. split; [exact En|]. split; [exact Eg'|].
  split; [exact Hsame| |exact Ba|exact Br].
  intros name r' Er'. pose proof (same_relationships _ _ _ _ Hsame name) as Hb. rewrite Er' in Hb.
  destruct (relationship_of w po name) as [r|] eqn:Er; [|easy]. destruct Hb as [Hseed _]. rewrite Hseed.
  now apply (Hst name r r').
Qed.

Definition tree_of (fmt : text_format) (w : world) (n : node doc) (folder : path) (po : pop) : Prop :=
  clean_population fmt w po /\ lookup n folder = Some (pop_tree fmt w po).

Lemma load_populations_spec fmt ls n db name w : sane fmt -> (forall l, Permutation (ls l) l) ->
  forall l, NoDup l ->
  (forall id, In id l -> exists po, population_named w id = Some po /\ tree_of fmt w n (population_folder db name id) po) ->
  forall w0, exists w1, foreach (load_population fmt ls n db name) l w0 = (Ok tt, w1) /\ grown w0 w1 /\
    w_gens w1 = w_gens w0 /\ w_gen_names w1 = w_gen_names w0 /\
    (forall id, In id l -> exists po po', population_named w id = Some po /\ population_named w1 id = Some po' /\
                                      loaded (w_prng w0) w po w1 po') /\
    (forall id, ~ In id l -> dget id (w_pop_names w1) = dget id (w_pop_names w0)).
Proof.
  intros Hs Hls. induction l as [|id l IH]; intros Hn H w0.
  - exists w0. split; [easy|]. split; [apply grown_refl|]. split; [easy|]. split; [easy|]. split; [easy|easy].
  - inversion Hn as [|? ? Hid Hn']; subst. destruct (H id) as (po & Epo & Hc & L); [now left|].
    destruct (load_pop_loaded fmt ls n _ w po Hs Hls Hc L w0) as (w1 & po' & E & G & Ep & Eg & En & Eg' & Hl).
    set (w1' := set_pop_names (dset id (length (w_pops w0)) (w_pop_names w1)) w1).
    assert (G' : grown w0 w1') by (destruct G; split; assumption).
    destruct (IH Hn' (fun x Hx => H x (or_intror Hx)) w1') as (w2 & E2 & G2 & Eg2 & Egn2 & Hin & Hout).
    exists w2. split; [|split; [|split; [|split; [|split]]]].
    + cbn [foreach]. unfold bindM at 1. unfold load_population. unfold bindM at 1. rewrite E.
      unfold bindM at 1. unfold get, modify. exact E2.
    + eapply grown_trans; eauto.
    + now rewrite Eg2.
    + now rewrite Egn2.
    + intros x [<-|Hx].
      * exists po, po'. split; [exact Epo|]. split.
        -- unfold population_named. rewrite (Hout id Hid). unfold w1'. cbn. rewrite dget_dset, keqb_refl.
           destruct (grown_pops _ _ G2) as [lp Elp]. rewrite Elp. cbn. rewrite Ep, <- app_assoc.
           rewrite nth_error_app2 by lia. now rewrite Nat.sub_diag.
        -- eapply loaded_grown; [|exact G2]. apply (loaded_names _ _ _ w1); [reflexivity|reflexivity|exact Hl].
      * destruct (Hin x Hx) as (q & q' & H1 & H2 & H3). exists q, q'. split; [exact H1|]. split; [exact H2|].
        replace (w_prng w0) with (w_prng w1'); [exact H3|]. apply (grown_prng _ _ G').
    + intros x Hx. rewrite Hout by (intros Hx'; apply Hx; now right). unfold w1'. cbn. rewrite dget_dset.
      destruct (keqb_spec x id) as [->|]; [exfalso; apply Hx; now left|]. now rewrite En.
Qed.

(** ** Loading generators *)

Lemma no_dot_before s : no_dot s -> before_dot (json_name s) = s.
Proof.
  unfold json_name. induction s as [|c s IH]; cbn; [easy|]. intros [Hc Hs].
  destruct (Ascii.eqb_spec c "."); [easy|]. now rewrite IH.
Qed.

Lemma dget_dset_same {V} (k : string) (v : V) d : dget k (dset k v d) = Some v.
Proof. now rewrite dget_dset, keqb_refl. Qed.

(** what the folder of generators holds *)
Record gens_inv (l : list (string * gen)) (es : list (string * node doc)) : Prop := {
  gi_keys : NoDup (dkeys es);
  gi_dirs : forall cls t, dget cls es = Some t -> exists fs, t = Dir fs /\ NoDup (dkeys fs);
  gi_files : forall cls f u, dget f (files_in cls es) = Some u <->
    exists id x j, In (id, x) l /\ cls = gen_class x /\ f = json_name id /\ gen_json x = Ok j /\ u = File (Json j)
}.

Lemma files_in_dset cls t es cls' : files_in cls' (dset cls (Dir t) es) = if keqb cls' cls then t else files_in cls' es.
Proof. unfold files_in. rewrite dget_dset. now destruct (keqb cls' cls). Qed.

Lemma add_gen_inv l es x : gens_inv l es -> ~ In (fst x) (map fst l) -> savable (snd x) -> gens_inv (l ++ [x]) (add_gen es x).
Proof.
  destruct x as [xi xg]. cbn [fst snd]. intros [K D Fi] Hx Hs. destruct (savable_json _ Hs) as [j Ej]. unfold add_gen. cbn [fst snd]. rewrite Ej.
  assert (Hnd : NoDup (dkeys (files_in (gen_class xg) es))).
  { unfold files_in. destruct (dget (gen_class xg) es) as [t|] eqn:E; [|constructor]. destruct (D _ _ E) as (fs & -> & Hf). exact Hf. }
  split.
  - now apply dset_NoDup.
  - intros cls t. rewrite dget_dset. destruct (keqb_spec cls (gen_class xg)) as [->|Hn]; [|apply D].
    intros [= <-]. eexists. split; [reflexivity|]. now apply dset_NoDup.
  - intros cls f u. rewrite files_in_dset.
    assert (Hold : dget f (files_in cls es) = Some u -> exists id x0 j0, In (id, x0) (l ++ [(xi, xg)]) /\ cls = gen_class x0 /\ f = json_name id /\ gen_json x0 = Ok j0 /\ u = File (Json j0)).
    { intros H. apply Fi in H. destruct H as (id & x0 & j0 & H & R). exists id, x0, j0. split; [apply in_or_app; now left|exact R]. }
    destruct (keqb_spec cls (gen_class xg)) as [->|Hn].
    + rewrite dget_dset. destruct (keqb_spec f (json_name xi)) as [->|Hf].
      * split.
        -- intros [= <-]. exists xi, xg, j. split; [apply in_or_app; right; now left|]. auto.
        -- intros (id & x0 & j0 & Hi & Hc & Hj & Ej0 & ->). apply json_name_inj in Hj. subst id.
           apply in_app_or in Hi as [Hi|[[= <-]|[]]].
           ++ exfalso. apply Hx. now apply (in_map fst) in Hi.
           ++ rewrite Ej in Ej0. now injection Ej0 as <-.
      * split; [exact Hold|]. intros (id & x0 & j0 & Hi & R). apply Fi. exists id, x0, j0. split; [|exact R].
        apply in_app_or in Hi as [Hi|[[= <- <-]|[]]]; [exact Hi|]. destruct R as (_ & R & _). congruence.
    + split; [exact Hold|]. intros (id & x0 & j0 & Hi & R). apply Fi. exists id, x0, j0. split; [|exact R].
      apply in_app_or in Hi as [Hi|[[= <- <-]|[]]]; [exact Hi|]. destruct R as (R & _). congruence.
Qed.

Lemma gens_entries_inv l : NoDup (map fst l) -> (forall x, In x l -> savable (snd x)) -> gens_inv l (gens_entries l).
Proof.
  intros Hn Hs. unfold gens_entries.
  assert (H : forall l1 l0 es, gens_inv l0 es -> NoDup (map fst (l0 ++ l1)) -> (forall x, In x l1 -> savable (snd x)) ->
              gens_inv (l0 ++ l1) (fold_left add_gen l1 es)).
  { induction l1 as [|x l1 IH]; intros l0 es Hi Hnd Hsv; cbn [fold_left]; [now rewrite app_nil_r|].
    change (x :: l1) with ([x] ++ l1). rewrite app_assoc. apply IH.
    - apply add_gen_inv; [exact Hi| |apply Hsv; now left].
      rewrite map_app in Hnd. cbn in Hnd. apply NoDup_remove_2 in Hnd. intros H. apply Hnd. apply in_or_app. now left.
    - now rewrite <- app_assoc.
    - intros y Hy. apply Hsv. now right. }
  apply (H l [] []); [|exact Hn|exact Hs].
  split; [constructor|easy|]. intros cls f u. cbn. split; [easy|]. intros (? & ? & ? & [] & _).
Qed.

Lemma NoDup_concat_map {A B C} (f : A -> list B) (key : B -> C) (tag : A -> C) l : NoDup (map tag l) ->
  (forall x, In x l -> NoDup (f x)) -> (forall x y, In x l -> In y (f x) -> key y = tag x) -> NoDup (concat (map f l)).
Proof.
  induction l as [|x l IH]; cbn; intros Hn Hf Hk; [constructor|]. inversion Hn as [|? ? Hx Hn']; subst.
  apply NoDup_app_disj.
  - apply Hf. now left.
  - apply IH; auto.
  - intros y Hy Hy'. apply in_concat in Hy as (ys & Hys & Hy). apply in_map_iff in Hys as (z & <- & Hz).
    apply Hx. rewrite <- (Hk x y) by auto. rewrite (Hk z y) by auto. now apply in_map.
Qed.

(** list_generators lists each (class, id) once *)
Lemma list_generators_spec ls n db name l es : (forall l, Permutation (ls l) l) -> gens_inv l es -> NoDup (map fst l) ->
  (forall x, In x l -> savable (snd x) /\ no_dot (fst x)) ->
  lookup n (generators_folder db name) = match es with [] => None | _ => Some (Dir es) end ->
  exists found, list_generators ls n db name = Ok found /\
    Permutation found (map (fun x => (gen_class (snd x), fst x)) l).
Proof.
  intros Hls Hi Hn Hsd L. unfold list_generators, path_exists. cbv zeta. rewrite L.
  destruct es as [|e0 es0] eqn:Ees.
  - exists []. split; [easy|]. destruct l as [|x l]; [constructor|]. exfalso.
    destruct (Hsd x) as [Hs _]; [now left|]. destruct (savable_json _ Hs) as [j Ej].
    assert (H : dget (json_name (fst x)) (files_in (gen_class (snd x)) []) = Some (File (Json j))).
    { apply (gi_files _ _ Hi). exists (fst x), (snd x), j. split; [left; now destruct x|auto]. }
    cbn in H. discriminate.
  - rewrite <- Ees in *. clear e0 es0 Ees.
    unfold listed_in at 1. unfold listdir at 1. rewrite L. cbn [bind].
    set (files := fun t => ls (dkeys (files_in t es))).
    set (line := fun t => map (fun f => (t, before_dot f)) (files t)).
    assert (Hty : forall t, In t (ls (dkeys es)) -> In t (dkeys es)).
    { intros t. apply Permutation_in. apply Hls. }
    assert (Hm : mapr (fun t => let! fs := listed_in ls n (generators_folder db name ++ [t]) in
                                Ok (map (fun f => (t, before_dot f)) fs)) (ls (dkeys es)) = Ok (map line (ls (dkeys es)))).
    { apply mapr_ok_Forall2. assert (Hty' : forall t, In t (ls (dkeys es)) -> In t (dkeys es)) by exact Hty.
      revert Hty'. generalize (ls (dkeys es)) as ts. induction ts as [|t ts IH]; intros Hts; cbn; constructor.
      - unfold listed_in, listdir. rewrite lookup_app, L. cbn [lookup].
        destruct (dget t es) as [u|] eqn:Eu.
        + destruct (gi_dirs _ _ Hi t u Eu) as (fs & -> & _). cbn. unfold line, files, files_in. now rewrite Eu.
        + apply dget_None in Eu. exfalso. apply Eu. apply Hts. now left.
      - apply IH. intros y Hy. apply Hts. now right. }
    rewrite Hm. cbn [bind]. eexists. split; [reflexivity|].
    (* every file is the file of a generator *)
    assert (Hkey : forall t f, In f (files t) -> exists id x, In (id, x) l /\ t = gen_class x /\ f = json_name id).
    { intros t f H. apply (Permutation_in _ (Hls _)) in H. apply in_map_iff in H as ([f' u] & <- & H).
      assert (E : dget f' (files_in t es) = Some u).
      { apply In_dget; [|exact H]. unfold files_in. destruct (dget t es) as [v|] eqn:Ev; [|constructor].
        destruct (gi_dirs _ _ Hi t v Ev) as (fs & -> & Hf). exact Hf. }
      apply (gi_files _ _ Hi) in E. destruct E as (id & x & j & H1 & H2 & H3 & _). cbn. eauto. }
    apply NoDup_Permutation.
    + apply (NoDup_concat_map line fst (fun t => t)).
      * rewrite map_id. eapply Permutation_NoDup; [apply Permutation_sym, Hls|apply (gi_keys _ _ Hi)].
      * intros t Ht. unfold line. apply NoDup_map_inj.
        -- intros f f' Hf Hf' E. injection E as E.
           destruct (Hkey t f Hf) as (id & x & H1 & _ & ->). destruct (Hkey t f' Hf') as (id' & x' & H1' & _ & ->).
           rewrite !no_dot_before in E by (eapply (Hsd (_, _)); eassumption). now subst.
        -- unfold files. eapply Permutation_NoDup; [apply Permutation_sym, Hls|].
           unfold files_in. destruct (dget t es) as [v|] eqn:Ev; [|constructor].
           destruct (gi_dirs _ _ Hi t v Ev) as (fs & -> & Hf). exact Hf.
      * intros t [a b] _ H. unfold line in H. apply in_map_iff in H as (f & [= <- <-] & _). reflexivity.
    + rewrite <- (map_map (fun x : string * gen => (fst x, snd x)) (fun x => (gen_class (snd x), fst x))).
      apply NoDup_map_inv with (f := snd). rewrite !map_map. exact Hn.
    + intros [t id]. split.
      * intros H. apply in_concat in H as (ys & Hys & H). apply in_map_iff in Hys as (t' & <- & Ht').
        unfold line in H. apply in_map_iff in H as (f & [= <- <-] & Hf).
        destruct (Hkey t' f Hf) as (id & x & H1 & H2 & ->). rewrite no_dot_before by (eapply (Hsd (_, _)); eassumption).
        apply in_map_iff. exists (id, x). cbn. now rewrite H2.
      * intros H. apply in_map_iff in H as ([id' x] & [= <- <-] & H).
        destruct (Hsd _ H) as [Hs Hd]. cbn [fst snd] in *. destruct (savable_json _ Hs) as [j Ej].
        assert (E : dget (json_name id') (files_in (gen_class x) es) = Some (File (Json j))).
        { apply (gi_files _ _ Hi). exists id', x, j. auto. }
        apply in_concat. exists (line (gen_class x)). split.
        -- apply in_map. apply (Permutation_in _ (Permutation_sym (Hls _))).
           unfold files_in in E. destruct (dget (gen_class x) es) as [u|] eqn:Eu; [|easy]. eapply dget_Some_key; eauto.
        -- unfold line. apply in_map_iff. exists (json_name id'). rewrite no_dot_before by exact Hd. split; [easy|].
           apply (Permutation_in _ (Permutation_sym (Hls _))). eapply dget_Some_key; eauto.
Qed.

(** reading the file of one generator *)
Lemma load_gen_reloads g n p x j : gen_json x = Ok j -> savable x -> lookup n p = Some (File (Json j)) ->
  exists y, load_gen g (gen_class x) n p = Ok y /\ reloads g x y.
Proof.
  intros Ej Hs L. unfold load_gen, read_json, read_file. rewrite L.
  destruct x; try easy; cbn in Ej; injection Ej as <-; eexists; (split; [reflexivity|reflexivity]).
Qed.

Lemma load_generators_spec n db name g (l : list (string * gen)) :
  (forall x, In x l -> savable (snd x) /\ exists j, gen_json (snd x) = Ok j /\
     lookup n (gen_folder db name (gen_class (snd x)) ++ [json_name (fst x)]) = Some (File (Json j))) ->
  NoDup (map fst l) ->
  forall w0, w_prng w0 = g -> (forall x, In x l -> dget (fst x) (w_gen_names w0) = None) ->
  exists w1, foreach (load_generator n db name) (map (fun x => (gen_class (snd x), fst x)) l) w0 = (Ok tt, w1) /\
    grown w0 w1 /\ w_pops w1 = w_pops w0 /\ w_pop_names w1 = w_pop_names w0 /\
    (forall id x, In (id, x) l -> exists y, generator_named w1 id = Some y /\ reloads g x y) /\
    (forall id, ~ In id (map fst l) -> dget id (w_gen_names w1) = dget id (w_gen_names w0)).
Proof.
  induction l as [|x l IH]; intros H Hn w0 Hg Ha.
  - exists w0. split; [easy|]. split; [apply grown_refl|]. split; [easy|]. split; [easy|]. split; [easy|easy].
  - inversion Hn as [|? ? Hx Hn']; subst. destruct (H x) as (Hs & j & Ej & L); [now left|].
    destruct (load_gen_reloads (w_prng w0) n _ _ _ Ej Hs L) as (y & Ey & Hy).
    set (w1 := set_gen_names (dset (fst x) (length (w_gens w0)) (w_gen_names w0)) (set_gens (w_gens w0 ++ [y]) w0)).
    assert (G1 : grown w0 w1).
    { split; try reflexivity; cbn; try (eexists; reflexivity); exists []; now rewrite app_nil_r. }
    destruct (IH (fun z Hz => H z (or_intror Hz)) Hn' w1) as (w2 & E2 & G2 & Ep & Epn & Hin & Hout).
    + reflexivity.
    + intros z Hz. unfold w1. cbn. rewrite dget_dset. destruct (keqb_spec (fst z) (fst x)) as [E|].
      * exfalso. apply Hx. rewrite <- E. now apply in_map.
      * apply Ha. now right.
    + exists w2. split; [|split; [|split; [|split; [|split]]]].
      * cbn [map foreach]. unfold bindM at 1. unfold load_generator. cbn [fst snd]. unfold bindM at 1. unfold get at 1.
        unfold bindM at 1. unfold lift at 1. rewrite Ey. unfold bindM at 1. unfold get at 1. unfold bindM at 1. unfold modify at 1.
        unfold attach_generator. unfold bindM at 1. unfold get at 1. cbn [w_gen_names set_gens].
        assert (Em : dmem (fst x) (w_gen_names w0) = false).
        { unfold dmem. now rewrite (Ha x) by now left. }
        change (w_gen_names (set_gens (w_gens w0 ++ [y]) w0)) with (w_gen_names w0). rewrite Em. unfold modify. exact E2.
      * eapply grown_trans; eauto.
      * now rewrite Ep.
      * now rewrite Epn.
      * intros id z [->|Hz].
        -- exists y. split; [|exact Hy]. unfold generator_named. rewrite (Hout id Hx). unfold w1. cbn.
           rewrite dget_dset, keqb_refl. destruct (grown_gens _ _ G2) as [lg Eg]. rewrite Eg. cbn. rewrite <- app_assoc.
           rewrite nth_error_app2 by lia. now rewrite Nat.sub_diag.
        -- destruct (Hin id z Hz) as (y' & E' & R'). exists y'. split; [exact E'|].
           exact R'.
      * intros id Hid. cbn [map] in Hid. rewrite Hout by (intros Hi; apply Hid; now right). unfold w1. cbn.
        rewrite dget_dset. destruct (keqb_spec id (fst x)) as [->|]; [exfalso; apply Hid; now left|easy].
Qed.

(** ** The tree of a circus *)
Lemma tree_populations fmt c : w_pop_names (c_world c) <> [] ->
  lookup (circus_tree fmt c) ["populations"%string] =
    Some (Dir (map (pop_entry fmt (c_world c)) (w_pop_names (c_world c)))).
Proof.
  intros H. unfold circus_tree. cbn [lookup app]. cbn [dget config_entry].
  change (keqb "populations"%string "circus_config.json"%string) with false. cbn iota.
  destruct (w_pop_names (c_world c)) as [|x l]; [easy|]. reflexivity.
Qed.

Lemma tree_generators fmt c : lookup (circus_tree fmt c) ["generators"%string] =
  match gens_entries (named_gens (c_world c)) with [] => None | es => Some (Dir es) end.
Proof.
  unfold circus_tree. cbn [lookup]. rewrite dget_app.
  replace (dget "generators"%string ([config_entry fmt c] ++ subdir "populations" _)) with (@None (node doc)).
  - destruct (gens_entries _); reflexivity.
  - destruct (map _ (w_pop_names (c_world c))); reflexivity.
Qed.

Lemma dget_pop_entries fmt w l x : NoDup (map fst l) -> In x l ->
  dget (fst x) (map (pop_entry fmt w) l) = Some (snd (pop_entry fmt w x)).
Proof.
  intros Hn Hx. apply In_dget.
  - unfold dkeys. rewrite map_map. exact Hn.
  - apply (in_map (pop_entry fmt w)) in Hx. exact Hx.
Qed.

Lemma named_gens_names w : (forall x, In x (w_gen_names w) -> exists g, nth_error (w_gens w) (snd x) = Some g) ->
  map fst (named_gens w) = map fst (w_gen_names w).
Proof.
  unfold named_gens. induction (w_gen_names w) as [|x l IH]; intros H; [easy|]. cbn [flat_map map].
  destruct (H x) as [g Eg]; [now left|]. rewrite Eg. cbn. f_equal. apply IH. intros y Hy. apply H. now right.
Qed.

Lemma load_circus_spec fmt ls g n db c : sane fmt -> (forall l, Permutation (ls l) l) -> clean_circus fmt c ->
  lookup n (namespace_folder db (c_name c)) = Some (circus_tree fmt c) ->
  exists c', load_from_db fmt ls g n db (c_name c) = Ok c' /\ same_circus g c c'.
Proof.
  intros Hs Hls Hc L. pose proof Hc as [Hne Np Hp Ng Hg Hst Hsp].
  set (w := c_world c) in *. set (folder := namespace_folder db (c_name c)) in *.
  destruct (clean_ok fmt c Hc) as (_ & _ & Hgk & _). fold w in Hgk.
  assert (Hnames : map fst (named_gens w) = map fst (w_gen_names w)) by (apply named_gens_names; exact Hgk).
  assert (Hnn : NoDup (map fst (named_gens w))) by now rewrite Hnames.
  assert (Hsd : forall x, In x (named_gens w) -> savable (snd x) /\ no_dot (fst x)) by (intros x; now apply (clean_savable fmt)).
  assert (Hinv : gens_inv (named_gens w) (gens_entries (named_gens w))).
  { apply gens_entries_inv; [exact Hnn|]. intros x Hx. apply (Hsd x Hx). }
  (* the configuration *)
  assert (Ecfg : read_json n (folder ++ ["circus_config.json"%string]) =
                 Ok (JConfig (c_master_seed c) (show_date fmt (c_start c)) (show_span fmt (c_step c)))).
  { unfold read_json, read_file. rewrite lookup_app, L. reflexivity. }
  (* the populations *)
  assert (LP : lookup n (populations_folder db (c_name c)) = Some (Dir (map (pop_entry fmt w) (w_pop_names w)))).
  { unfold populations_folder. fold folder. rewrite lookup_app, L. now apply tree_populations. }
  assert (LPx : forall x, In x (w_pop_names w) -> exists po, nth_error (w_pops w) (snd x) = Some po /\
             tree_of fmt w n (population_folder db (c_name c) (fst x)) po).
  { intros [name p] Hx. destruct (Hp name p Hx) as (po & Ep & Hcl). exists po. split; [exact Ep|]. split; [exact Hcl|].
    unfold population_folder. rewrite lookup_app, LP. cbn [lookup]. rewrite (dget_pop_entries fmt w _ _ Np Hx).
    cbn [lookup]. unfold pop_entry. cbn [fst snd]. now rewrite Ep. }
  set (pops := ls (map fst (w_pop_names w))).
  assert (Hpin : forall id, In id pops <-> In id (map fst (w_pop_names w))).
  { intros id. split; apply Permutation_in; [apply Hls|apply Permutation_sym, Hls]. }
  assert (Elist : list_populations ls n db (c_name c) = Ok pops).
  { unfold list_populations, listed_in, listdir. cbv zeta. rewrite LP. cbn [bind].
    replace (dkeys (map (pop_entry fmt w) (w_pop_names w))) with (map fst (w_pop_names w)) by (unfold dkeys; now rewrite map_map).
    fold pops. f_equal. apply filter_all_true. intros d Hd. apply Hpin in Hd. apply in_map_iff in Hd as (x & <- & Hx).
    destruct (LPx x Hx) as (po & _ & _ & Lx). unfold population_folder in Lx. rewrite Lx. reflexivity. }
  assert (Hnp : NoDup pops) by (eapply Permutation_NoDup; [apply Permutation_sym, Hls|exact Np]).
  assert (Hpn : forall id, In id pops -> exists po, population_named w id = Some po /\ tree_of fmt w n (population_folder db (c_name c) id) po).
  { intros id Hid. apply Hpin in Hid. apply in_map_iff in Hid as ([name p] & <- & Hx).
    destruct (LPx _ Hx) as (po & Ep & Ht). exists po. split; [|exact Ht]. unfold population_named.
    cbn [fst snd] in *. now rewrite (In_dget name p _ Np Hx). }
  set (w0 := new_circus g (c_master_seed c) (c_start c) (c_step c)).
  assert (Hw0 : w_prng w0 = g /\ w_gens w0 = [] /\ w_pops w0 = [] /\ w_stories w0 = [] /\ w_pop_names w0 = [] /\ w_gen_names w0 = []).
  { unfold w0, new_circus. destruct (next_seed _) as [seed seeder]. cbn. auto 10. }
  destruct Hw0 as (Hg0 & Hgens0 & Hpops0 & Hst0 & Hpn0 & Hgn0).
  destruct (load_populations_spec fmt ls n db (c_name c) w Hs Hls pops Hnp Hpn w0)
    as (w1 & E1 & G1 & Eg1 & Egn1 & Hin1 & Hout1).
  (* the generators *)
  assert (LG : lookup n (generators_folder db (c_name c)) =
               match gens_entries (named_gens w) with [] => None | _ => Some (Dir (gens_entries (named_gens w))) end).
  { unfold generators_folder. fold folder. rewrite lookup_app, L, tree_generators. fold w.
    destruct (gens_entries (named_gens w)); reflexivity. }
  destruct (list_generators_spec ls n db (c_name c) _ _ Hls Hinv Hnn Hsd LG) as (found & Efound & Hfp).
  apply Permutation_sym in Hfp. destruct (Permutation_map_inv _ _ (Permutation_sym Hfp)) as (gl & -> & Hgp).
  assert (Hgl : forall x, In x gl <-> In x (named_gens w)).
  { intros x. split; apply Permutation_in; [apply Permutation_sym, Hgp|exact Hgp]. }
  assert (Hngl : NoDup (map fst gl)) by (eapply Permutation_NoDup; [apply Permutation_map; exact Hgp|exact Hnn]).
  destruct (load_generators_spec n db (c_name c) g gl) with (w0 := w1) as (w2 & E2 & G2 & Ep2 & Epn2 & Hin2 & Hout2).
  - intros x Hx. apply Hgl in Hx. destruct (Hsd x Hx) as [Hsx _]. split; [exact Hsx|].
    destruct (savable_json _ Hsx) as [j Ej]. exists j. split; [exact Ej|].
    assert (Ed : dget (json_name (fst x)) (files_in (gen_class (snd x)) (gens_entries (named_gens w))) = Some (File (Json j))).
    { apply (gi_files _ _ Hinv). exists (fst x), (snd x), j. split; [now destruct x|auto]. }
    unfold gen_folder. rewrite <- app_assoc, lookup_app, LG. unfold files_in in Ed.
    destruct (gens_entries (named_gens w)) as [|e0 es0]; [easy|]. cbn [app lookup].
    destruct (dget (gen_class (snd x)) (e0 :: es0)) as [[cc|fs]|]; [easy| |easy]. cbn [lookup]. now rewrite Ed.
  - exact Hngl.
  - now rewrite (grown_prng _ _ G1).
  - intros x Hx. rewrite Egn1, Hgn0. reflexivity.
  - exists (mkCircus (c_name c) (c_master_seed c) (c_start c) (c_step c) w2). split.
    + unfold load_from_db. fold folder. rewrite Ecfg. cbn [bind]. unfold as_date, as_span. rewrite Hst. cbn [bind]. rewrite Hsp. cbn [bind].
      rewrite Elist. cbn [bind]. fold w0. rewrite E1. rewrite Efound. cbn [bind]. rewrite E2. reflexivity.
    + assert (G : grown w0 w2) by (eapply grown_trans; eauto).
      split; try reflexivity; cbn [c_world c_name c_master_seed c_start c_step].
      * intros name. fold w. destruct (in_dec String.string_dec name pops) as [Hi|Hi].
        -- destruct (Hin1 name Hi) as (po & po' & Ea & Eb & Hl). rewrite Ea. unfold population_named. rewrite Epn2, Ep2.
           unfold population_named in Eb. rewrite Eb. cbn. rewrite Hg0 in Hl. destruct (loaded_grown _ _ _ _ _ _ Hl G2) as [H1 H2 _ _]. auto.
        -- assert (Ea : population_named w name = None).
           { unfold population_named. destruct (dget name (w_pop_names w)) as [k|] eqn:Ek; [|easy]. exfalso. apply Hi, Hpin.
             apply dget_Some_key in Ek. exact Ek. }
           rewrite Ea. unfold population_named. rewrite Epn2, (Hout1 name Hi), Hpn0. exact I.
      * intros id. fold w. destruct (in_dec String.string_dec id (map fst gl)) as [Hi|Hi].
        -- apply in_map_iff in Hi as ([id' x] & <- & Hx). cbn [fst].
           destruct (Hin2 id' x Hx) as (y & Ey & Hy). rewrite Ey. apply Hgl in Hx. apply In_named in Hx as (k & Hk & Ek).
           unfold generator_named. rewrite (In_dget id' k _ Ng Hk), Ek. exact Hy.
        -- assert (Ea : generator_named w id = None).
           { unfold generator_named. destruct (dget id (w_gen_names w)) as [k|] eqn:Ek; [|easy]. exfalso. apply Hi.
             assert (Hin : In id (map fst (named_gens w))) by (rewrite Hnames; now apply dget_Some_key in Ek).
             apply in_map_iff in Hin as (x & <- & Hx). apply in_map. now apply Hgl. }
           rewrite Ea. unfold generator_named. rewrite (Hout2 id Hi), Egn1, Hgn0. exact I.
      * apply (grown_seeder _ _ G).
      * apply (grown_clock _ _ G).
      * rewrite (grown_stories _ _ G). exact Hst0.
Qed.
