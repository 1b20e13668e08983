(** The tree written by save_to_db. *)
From Verif Require Import Base BaseFacts Rng Utils Relationship Frame Gens Clock Attribute World Circus Fs SpecFs FsFacts
  Persist PersistFs PersistTree.

Lemma dget_subdir dname es files : dget dname es = None ->
  dget dname (es ++ subdir dname files) = match files with [] => None | _ => Some (Dir files) end.
Proof.
  intros H. rewrite dget_app, H. destruct files; cbn; [easy|]. now rewrite keqb_refl.
Qed.

Lemma dset_app_new {V} (k : string) (v : V) (a b : dict string V) : dget k a = None -> dset k v (a ++ b) = a ++ dset k v b.
Proof.
  induction a as [|[k' x] a IH]; cbn; [easy|]. destruct (keqb_spec k k') as [->|Hn]; [easy|]. intros H. now rewrite IH.
Qed.

Lemma dset_subdir dname es files x : dget dname es = None ->
  dset dname x (es ++ subdir dname files) = es ++ [(dname, x)].
Proof.
  intros H. rewrite dset_app_new by exact H. destruct files; cbn; [easy|]. now rewrite keqb_refl.
Qed.

Lemma local_assoc p q r (f : node doc -> path -> result (node doc)) : local_call f -> q <> [] ->
  local p (sys (fun n => f n ((p ++ q) ++ r))) (sys (fun n => f n (q ++ r))).
Proof.
  intros Hf Hq. intros n t L. unfold sys, lifted. rewrite <- app_assoc. rewrite (Hf n p (q ++ r) t); [|destruct q; easy|exact L].
  destruct (f t (q ++ r)); cbn; [easy|]. now rewrite graft_same.
Qed.
Lemma local_assoc2 p q r r' (f : node doc -> path -> result (node doc)) : local_call f -> q <> [] ->
  local p (sys (fun n => f n (((p ++ q) ++ r) ++ r'))) (sys (fun n => f n ((q ++ r) ++ r'))).
Proof.
  intros Hf Hq. intros n t L. unfold sys, lifted. rewrite <- !app_assoc. rewrite (Hf n p (q ++ r ++ r') t); [|destruct q; easy|exact L].
  destruct (f t (q ++ r ++ r')); cbn; [easy|]. now rewrite graft_same.
Qed.

Lemma save_population_local fmt w po p q : q <> [] ->
  local p (save_population fmt w po (p ++ q)) (save_population fmt w po q).
Proof.
  intros Hq. unfold save_population.
  apply local_bind; [apply (local_sys p q (fun n x => ensure_non_existing_dir n x) ensure_gone_local Hq)|intros _].
  apply local_bind; [apply (local_sys p q (fun n x => os_makedirs n x) makedirs_local Hq)|intros _].
  apply local_bind; [apply (local_assoc p q _ (fun n x => write_file n x _) (write_local _) Hq)|intros _].
  apply local_bind.
  - destruct (p_attrs po) as [|a l]; [apply local_ret|].
    apply local_bind; [apply (local_assoc p q _ (fun n x => os_mkdir n x) mkdir_local Hq)|intros _].
    apply local_foreach. intros x. unfold write_attr. destruct (nth_error _ _); [|apply local_raise].
    apply (local_assoc2 p q _ _ (fun n y => write_file n y _) (write_local _) Hq).
  - intros _. destruct (p_rels po) as [|a l]; [apply local_ret|].
    apply local_bind; [apply (local_assoc p q _ (fun n x => os_mkdir n x) mkdir_local Hq)|intros _].
    apply local_foreach. intros x. unfold write_rel. destruct (nth_error _ _); [|apply local_raise].
    apply (local_assoc2 p q _ _ (fun n y => write_file n y _) (write_local _) Hq).
Qed.

(** a population below "populations" *)
Lemma save_pop_here fmt w po id es pops : pop_ok w po ->
  dget "populations"%string es = None -> dget id pops = None ->
  save_population fmt w po ["populations"%string; id] (Dir (es ++ subdir "populations" pops)) =
    (Ok tt, Dir (es ++ subdir "populations" (pops ++ [(id, pop_tree fmt w po)]))).
Proof.
  intros Hp He Hi.
  assert (Hm : make_path (Dir (es ++ subdir "populations" pops)) ["populations"%string; id] =
               Ok (Dir (es ++ [("populations"%string, Dir (pops ++ [(id, Dir [])]))]))).
  { cbn [make_path]. rewrite dget_subdir by exact He. destruct pops as [|x pops].
    - cbn [dget bind dset]. now rewrite dset_subdir.
    - cbn [make_path]. rewrite Hi. cbn [bind]. rewrite (dset_absent id) by exact Hi. now rewrite dset_subdir. }
  assert (Hl : lookup (Dir (es ++ [("populations"%string, Dir (pops ++ [(id, Dir [])]))])) ["populations"%string; id] = Some (Dir [])).
  { cbn [lookup]. rewrite dget_app, He. cbn [dget]. rewrite keqb_refl, dget_app, Hi. cbn [dget]. now rewrite keqb_refl. }
  assert (Hne : ["populations"%string; id] <> []) by easy.
  rewrite (save_population_tree fmt w po _ _ Hp Hne) with (n1 := Dir (es ++ [("populations"%string, Dir (pops ++ [(id, Dir [])]))])).
  - cbn [graft]. rewrite dget_app, He. cbn [dget]. rewrite keqb_refl, dget_app, Hi. cbn [dget]. rewrite keqb_refl.
    rewrite dset_app_new by exact He. cbn [dset]. rewrite keqb_refl. rewrite dset_app_new by exact Hi. cbn [dset]. rewrite keqb_refl.
    destruct pops; reflexivity.
  - cbn [lookup]. rewrite dget_subdir by exact He. destruct pops as [|x pops]; [easy|]. cbn [lookup]. now rewrite Hi.
  - exact Hm.
  - exact Hl.
Qed.

Definition pop_entry (fmt : text_format) (w : world) (x : string * nat) : string * node doc :=
  (fst x, match nth_error (w_pops w) (snd x) with Some po => pop_tree fmt w po | None => Dir [] end).

Definition save_pop_at (fmt : text_format) (w : world) (dir : path) (x : string * nat) : F unit :=
  match nth_error (w_pops w) (snd x) with
  | None => raiseF Unmodelled
  | Some po => save_population fmt w po (dir ++ ["populations"%string; fst x])
  end.

Lemma save_pop_item_at fmt db c x :
  save_pop_item fmt db c x = save_pop_at fmt (c_world c) (namespace_folder db (c_name c)) x.
Proof.
  unfold save_pop_item, save_pop_at, population_folder, populations_folder. rewrite <- app_assoc. reflexivity.
Qed.

Lemma save_pops_here fmt w l es pops :
  (forall x, In x l -> exists po, nth_error (w_pops w) (snd x) = Some po /\ pop_ok w po) ->
  NoDup (map fst l) -> dget "populations"%string es = None -> (forall x, In x l -> dget (fst x) pops = None) ->
  foreachF (save_pop_at fmt w []) l (Dir (es ++ subdir "populations" pops)) =
    (Ok tt, Dir (es ++ subdir "populations" (pops ++ map (pop_entry fmt w) l))).
Proof.
  revert pops; induction l as [|x l IH]; intros pops Hp Hn He Ha; cbn [foreachF map]; [now rewrite app_nil_r|].
  unfold bindF. unfold save_pop_at at 1. destruct (Hp x) as (po & Ep & Hpo); [now left|]. rewrite Ep. cbn [app].
  rewrite save_pop_here by (auto; apply Ha; now left). inversion Hn as [|? ? Hx Hn']; subst.
  rewrite IH.
  - rewrite <- app_assoc. cbn [app]. unfold pop_entry at 2. now rewrite Ep.
  - intros y Hy. apply Hp. now right.
  - exact Hn'.
  - exact He.
  - intros y Hy. rewrite dget_app, Ha by now right. cbn [dget].
    destruct (keqb_spec (fst y) (fst x)) as [E|]; [|easy]. exfalso. apply Hx. rewrite <- E. now apply in_map.
Qed.

(** ** generators *)
Definition files_in (cls : string) (es : list (string * node doc)) : list (string * node doc) :=
  match dget cls es with Some (Dir fs) => fs | _ => [] end.
Definition add_gen (es : list (string * node doc)) (x : string * gen) : list (string * node doc) :=
  match gen_json (snd x) with
  | Ok j => dset (gen_class (snd x)) (Dir (dset (json_name (fst x)) (File (Json j)) (files_in (gen_class (snd x)) es))) es
  | Err _ => es
  end.

(** every entry is a directory of files *)
Definition gens_dir (es : list (string * node doc)) : Prop :=
  forall cls t, dget cls es = Some t -> exists fs, t = Dir fs /\ forall f u, dget f fs = Some u -> exists c, u = File c.

Lemma add_gen_dir es x : gens_dir es -> gens_dir (add_gen es x).
Proof.
  intros H. unfold add_gen. destruct (gen_json (snd x)) as [j|e]; [|easy].
  intros cls t. rewrite dget_dset. destruct (keqb_spec cls (gen_class (snd x))) as [->|Hn]; [|apply H].
  intros [= <-]. eexists. split; [reflexivity|]. intros f u. rewrite dget_dset. destruct (keqb_spec f (json_name (fst x))).
  - intros [= <-]. eauto.
  - unfold files_in. destruct (dget (gen_class (snd x)) es) as [t|] eqn:E; [|easy].
    destruct (H _ _ E) as (fs & -> & Hfs). apply Hfs.
Qed.

Definition save_gen_at (dir : path) (x : string * gen) : F unit :=
  do _ := sys (fun n => ensure_folder_exists n (dir ++ ["generators"%string; gen_class (snd x)])) in
  match gen_json (snd x) with
  | Ok j => sys (fun n => write_file n (dir ++ ["generators"%string; gen_class (snd x); json_name (fst x)]) (Json j))
  | Err e => raiseF e
  end.

Lemma save_generator_at db name id g :
  save_generator db name id g = save_gen_at (namespace_folder db name) (id, g).
Proof.
  unfold save_generator, save_gen_at, gen_folder, generators_folder. cbn [fst snd]. rewrite <- !app_assoc. reflexivity.
Qed.

Lemma save_gen_local p x : local p (save_gen_at p x) (save_gen_at [] x).
Proof.
  unfold save_gen_at. apply local_bind.
  - apply (local_sys p _ (fun n y => ensure_folder_exists n y) ensure_folder_local). easy.
  - intros _. destruct (gen_json (snd x)); [|apply local_raise].
    apply (local_sys p _ (fun n y => write_file n y _) (write_local _)). easy.
Qed.

Lemma save_gen_here es ges x j : gens_dir ges -> dget "generators"%string es = None -> gen_json (snd x) = Ok j ->
  save_gen_at [] x (Dir (es ++ subdir "generators" ges)) = (Ok tt, Dir (es ++ subdir "generators" (add_gen ges x))).
Proof.
  intros Hg He Ej. unfold save_gen_at. rewrite Ej. cbn [app]. unfold add_gen. rewrite Ej.
  set (cls := gen_class (snd x)).
  assert (Hs : forall fs, (forall f u, dget f fs = Some u -> exists c, u = File c) -> files_in cls ges = fs ->
    sys (fun n => write_file n ["generators"%string; cls; json_name (fst x)] (Json j))
        (Dir (es ++ [("generators"%string, Dir (dset cls (Dir fs) ges))])) =
    (Ok tt, Dir (es ++ [("generators"%string, Dir (dset cls (Dir (dset (json_name (fst x)) (File (Json j)) fs)) ges))]))).
  { intros fs Hfs E. unfold sys, write_file. cbn [lookup insert_at]. rewrite dget_app, He. cbn [dget]. rewrite keqb_refl.
    rewrite dget_dset, keqb_refl. destruct (dget (json_name (fst x)) fs) as [u|] eqn:Eu.
    - destruct (Hfs _ _ Eu) as [c ->]. cbn [bind]. rewrite dset_app_new by exact He. cbn [dset]. rewrite keqb_refl, dset_dset. reflexivity.
    - cbn [bind]. rewrite dset_app_new by exact He. cbn [dset]. rewrite keqb_refl, dset_dset. reflexivity. }
  assert (Hd : forall t, subdir "generators" (dset cls t ges) = [("generators"%string, Dir (dset cls t ges))]).
  { intros t. destruct ges as [|[k v] ges]; cbn; [easy|]. destruct (keqb cls k); easy. }
  rewrite Hd. unfold bindF. unfold sys at 1. unfold ensure_folder_exists, path_exists. cbn [lookup].
  rewrite dget_subdir by exact He. destruct (dget cls ges) as [t|] eqn:Ec.
  - destruct (Hg _ _ Ec) as (fs & -> & Hfs). destruct ges as [|g0 ges0]; [easy|]. cbn [lookup]. rewrite Ec.
    specialize (Hs fs Hfs). unfold files_in in Hs |- *. rewrite Ec in Hs |- *. specialize (Hs eq_refl).
    rewrite dset_same in Hs by exact Ec. exact Hs.
  - specialize (Hs [] ltac:(easy)). unfold files_in in Hs |- *. rewrite Ec in Hs |- *. specialize (Hs eq_refl).
    replace (match ges with [] => None | _ => Some (Dir ges) end) with (match ges with [] => None | _ => Some (Dir ges) end) by reflexivity.
    assert (Hm : ensure_folder_exists (Dir (es ++ subdir "generators" ges)) ["generators"%string; cls] =
                 Ok (Dir (es ++ [("generators"%string, Dir (dset cls (Dir []) ges))]))).
    { unfold ensure_folder_exists, os_makedirs, path_exists. cbn [lookup make_path]. rewrite dget_subdir by exact He.
      destruct ges as [|g0 ges0].
      - cbn [dget bind dset]. now rewrite dset_subdir.
      - cbn [lookup make_path]. rewrite Ec. cbn [bind]. now rewrite dset_subdir. }
    unfold ensure_folder_exists, path_exists in Hm. cbn [lookup] in Hm. rewrite dget_subdir in Hm by exact He. rewrite Hm. exact Hs.
Qed.

Definition gens_entries (l : list (string * gen)) : list (string * node doc) := fold_left add_gen l [].

Lemma save_gens_here l es ges : (forall x, In x l -> exists j, gen_json (snd x) = Ok j) -> gens_dir ges ->
  dget "generators"%string es = None ->
  foreachF (save_gen_at []) l (Dir (es ++ subdir "generators" ges)) =
    (Ok tt, Dir (es ++ subdir "generators" (fold_left add_gen l ges))).
Proof.
  revert ges; induction l as [|x l IH]; intros ges Hj Hg He; cbn [foreachF fold_left]; [easy|].
  unfold bindF. destruct (Hj x) as [j Ej]; [now left|]. rewrite (save_gen_here es ges x j Hg He Ej).
  apply IH; [intros y Hy; apply Hj; now right|now apply add_gen_dir|exact He].
Qed.

(** ** the whole circus *)
Definition named_gens (w : world) : list (string * gen) :=
  flat_map (fun x => match nth_error (w_gens w) (snd x) with Some g => [(fst x, g)] | None => [] end) (w_gen_names w).

Definition config_entry (fmt : text_format) (c : circus) : string * node doc :=
  ("circus_config.json"%string,
   File (Json (JConfig (c_master_seed c) (show_date fmt (c_start c)) (show_span fmt (c_step c))))).

Definition circus_tree (fmt : text_format) (c : circus) : node doc :=
  Dir (([config_entry fmt c] ++ subdir "populations" (map (pop_entry fmt (c_world c)) (w_pop_names (c_world c)))) ++
       subdir "generators" (gens_entries (named_gens (c_world c)))).

(** Every name refers to an object, and the names of a dictionary are distinct. *)
Definition circus_ok (w : world) : Prop :=
  (forall x, In x (w_pop_names w) -> exists po, nth_error (w_pops w) (snd x) = Some po /\ pop_ok w po) /\
  NoDup (map fst (w_pop_names w)) /\
  (forall x, In x (w_gen_names w) -> exists g, nth_error (w_gens w) (snd x) = Some g) /\
  NoDup (map fst (w_gen_names w)).

Lemma foreachF_gens db c l n :
  (forall x, In x l -> exists g, nth_error (w_gens (c_world c)) (snd x) = Some g) ->
  foreachF (save_gen_item db c) l n =
  foreachF (save_gen_at (namespace_folder db (c_name c)))
    (flat_map (fun x => match nth_error (w_gens (c_world c)) (snd x) with Some g => [(fst x, g)] | None => [] end) l) n.
Proof.
  revert n; induction l as [|x l IH]; intros n H; [easy|]. cbn [foreachF flat_map].
  destruct (H x) as [g Eg]; [now left|]. rewrite Eg. cbn [app foreachF]. unfold bindF.
  unfold save_gen_item at 1. rewrite Eg, save_generator_at.
  destruct (save_gen_at _ (fst x, g) n) as [[[]|e] n']; [|easy]. apply IH. intros y Hy. apply H. now right.
Qed.

(** The three last parts of save_to_db, in an empty namespace. *)
Lemma save_rest_tree fmt db c n : circus_ok (c_world c) ->
  (forall x, In x (named_gens (c_world c)) -> exists j, gen_json (snd x) = Ok j) ->
  let folder := namespace_folder db (c_name c) in
  lookup n folder = Some (Dir []) ->
  (do _ := sys (fun n => write_file n (folder ++ ["circus_config.json"%string])
                          (Json (JConfig (c_master_seed c) (show_date fmt (c_start c)) (show_span fmt (c_step c))))) in
   do _ := foreachF (save_pop_item fmt db c) (w_pop_names (c_world c)) in
   foreachF (save_gen_item db c) (w_gen_names (c_world c))) n =
  (Ok tt, graft n folder (circus_tree fmt c)).
Proof.
  intros (Hp & Np & Hg & Ng) Hj folder L.
  transitivity (lifted n folder
    ((do _ := sys (fun n => write_file n ["circus_config.json"%string]
                          (Json (JConfig (c_master_seed c) (show_date fmt (c_start c)) (show_span fmt (c_step c))))) in
      do _ := foreachF (save_pop_at fmt (c_world c) []) (w_pop_names (c_world c)) in
      foreachF (save_gen_at []) (named_gens (c_world c))) (Dir []))).
  - apply local_run; [|exact L].
    apply local_bind; [apply (local_sys folder _ (fun n y => write_file n y _) (write_local _)); easy|intros _].
    apply local_bind.
    + intros m t Lm. rewrite (foreachF_ext _ (save_pop_at fmt (c_world c) folder)) by (intros; apply save_pop_item_at).
      apply (local_foreach folder); [|exact Lm]. intros x. unfold save_pop_at. destruct (nth_error _ _); [|apply local_raise].
      apply save_population_local. easy.
    + intros _ m t Lm. rewrite foreachF_gens by exact Hg.
      apply (local_foreach folder); [|exact Lm]. intros x. apply save_gen_local.
  - match goal with |- lifted n folder ?X = _ => assert (HX : X = (Ok tt, circus_tree fmt c)) end.
    { unfold bindF at 1. unfold sys at 1. unfold write_file at 1. cbn [lookup dget insert_at dset].
      unfold bindF at 1.
      change (Dir [("circus_config.json"%string, _)]) with (Dir ([config_entry fmt c] ++ subdir "populations" [])).
      rewrite save_pops_here by (auto; easy). cbn [app].
      change (config_entry fmt c :: subdir "populations" (map (pop_entry fmt (c_world c)) (w_pop_names (c_world c))))
        with ([config_entry fmt c] ++ subdir "populations" (map (pop_entry fmt (c_world c)) (w_pop_names (c_world c)))).
      set (es := [config_entry fmt c] ++ _).
      transitivity (foreachF (save_gen_at []) (named_gens (c_world c)) (Dir (es ++ subdir "generators" []))).
      { cbn [subdir]. now rewrite app_nil_r. }
      rewrite save_gens_here.
      - reflexivity.
      - exact Hj.
      - intros cls t. easy.
      - unfold es. destruct (map (pop_entry fmt (c_world c)) (w_pop_names (c_world c))); reflexivity. }
    now rewrite HX.
Qed.
