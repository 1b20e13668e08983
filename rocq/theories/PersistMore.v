(** Timer profiles, empirical distributions, single generators, and what a failed save leaves. *)
From Verif Require Import Base BaseFacts Rng Utils Relationship SpecRelationship Frame Gens Clock Attribute World Circus Fs SpecFs FsFacts
  Persist SpecPersist PersistFacts PersistRel PersistFs PersistTree PersistSave PersistLoad PersistCircus.

(** ** Numbers in a column *)
Lemma survives_text fmt q : sane fmt -> survives fmt (Q2Qc q) ->
  is_na_text (show fmt (vq q)) = false /\ read_num fmt (show fmt (vq q)) = Some (Q2Qc q) /\
  bool_text (show fmt (vq q)) = None.
Proof.
  intros Hs H. cbn [show vq]. split; [now apply show_num_na|]. split; [exact H|].
  destruct (bool_text (show_num fmt (Q2Qc q))) as [b|] eqn:E; [|easy].
  unfold survives in H. rewrite (booleans_no_number fmt Hs _ _ E) in H. discriminate.
Qed.

(** ** Timer profiles *)
Lemma param_absent param (ls : list (string * val)) x : ~ In param (map fst ls) ->
  find (fun l => keqb (fst l) param) (ls ++ x) = find (fun l => keqb (fst l) param) x.
Proof.
  induction ls as [|a ls IH]; cbn; [easy|]. intros H. destruct (keqb_spec (fst a) param) as [E|]; [exfalso; apply H; now left|].
  apply IH. intros Hi. apply H. now right.
Qed.

Lemma profile_columns fmt ws k :
  let body := map (fun '(i, q) => ["profile"%string; show fmt (vnat i); show fmt (vq q)]) (combine (seq k (length ws)) ws) in
  column 0 body = map (fun _ => "profile"%string) ws /\ column 2 body = map (fun q => show fmt (vq q)) ws.
Proof.
  cbv zeta. unfold column. rewrite !map_map. revert k; induction ws as [|q l IH]; intros k; cbn [length seq combine map nth]; [easy|].
  destruct (IH (S k)) as [-> ->]. easy.
Qed.

Lemma profile_round_trip fmt p : sane fmt -> p_weights p <> [] ->
  (forall q, In q (p_weights p) -> survives fmt (Q2Qc q)) ->
  read_date fmt (show_date fmt (p_start p)) = Some (p_start p) ->
  read_span fmt (show_span fmt (p_step p)) = Some (p_step p) ->
  ~ In (show_date fmt (p_start p)) na_texts -> ~ In (show_span fmt (p_step p)) na_texts ->
  read_num fmt (show_date fmt (p_start p)) = None ->
  load_profile fmt (profile_table fmt p) = Ok (mkProfile (map Qred (p_weights p)) (p_step p) (p_start p)).
Proof.
  intros Hs Hne Hw Hd Hsp Nd Nsp Hn. unfold load_profile, profile_table. cbv zeta.
  set (ws := p_weights p) in *. set (body := map _ (combine (seq 0 (length ws)) ws)).
  assert (Hb0 : column 0 body = map (fun _ => "profile"%string) ws).
  { apply profile_columns. }
  assert (Hb2 : column 2 body = map (fun q => show fmt (vq q)) ws).
  { apply profile_columns. }
  rewrite !column_app, Hb0, Hb2.
  unfold column. cbn [map nth].
  assert (Eread : read_column fmt (map (fun q => show fmt (vq q)) ws ++ [show_date fmt (p_start p); show_span fmt (p_step p)]) =
                  map (fun q => VStr (show fmt (vq q))) ws ++ [VStr (show_date fmt (p_start p)); VStr (show_span fmt (p_step p))]).
  { unfold read_column.
    rewrite (forallb_not _ _ (show_date fmt (p_start p))).
    2:{ apply in_or_app. right. now left. }
    2:{ now rewrite (is_na_text_false _ Nd), Hn. }
    destruct ws as [|q0 ws0] eqn:Ews; [easy|].
    rewrite (forallb_not _ _ (show fmt (vq q0))).
    2:{ cbn. now left. }
    2:{ destruct (survives_text fmt q0 Hs) as (H1 & _ & H2); [apply Hw; now left|]. now rewrite H1, H2. }
    rewrite <- Ews in *. rewrite map_app, map_map. f_equal.
    - apply map_ext_in. intros q Hq. destruct (survives_text fmt q Hs (Hw q Hq)) as (H1 & _). now rewrite H1.
    - cbn [map]. now rewrite (is_na_text_false _ Nd), (is_na_text_false _ Nsp). }
  rewrite Eread.
  set (prof := combine (map (fun _ => "profile"%string) ws) (map (fun q => VStr (show fmt (vq q))) ws)).
  replace (combine _ _) with (prof ++ [("start_date"%string, VStr (show_date fmt (p_start p)));
                                       ("profile_time_steps"%string, VStr (show_span fmt (p_step p)))]).
  2:{ unfold prof. clear. induction ws as [|q l IH]; [easy|]. cbn [map app combine]. now rewrite IH. }
  assert (Hprof : forall x, In x prof -> fst x = "profile"%string).
  { intros [a b] Hx. apply in_combine_l in Hx. apply in_map_iff in Hx as (? & <- & _). reflexivity. }
  assert (Hpk : forall param, param <> "profile"%string -> ~ In param (map fst prof)).
  { intros param Hp Hi. apply in_map_iff in Hi as (x & <- & Hx). apply Hp. now apply Hprof. }
  rewrite filter_app. cbn [filter fst].
  change (keqb "start_date"%string "profile"%string) with false. change (keqb "profile_time_steps"%string "profile"%string) with false.
  cbn iota. rewrite app_nil_r.
  assert (Ef : filter (fun l : string * val => keqb (fst l) "profile"%string) prof = prof).
  { rewrite <- (map_id prof) at 2. clear -Hprof. induction prof as [|x l IH]; [easy|]. cbn [filter map].
    rewrite (Hprof x) by now left. change (keqb "profile"%string "profile"%string) with true. cbn iota. f_equal.
    rewrite map_id in *. apply IH. intros y Hy. apply Hprof. now right. }
  rewrite Ef. destruct prof as [|x0 prof0] eqn:Eprof.
  { exfalso. unfold prof in Eprof. destruct ws; easy. }
  rewrite <- Eprof in *. clear x0 prof0 Eprof.
  assert (Em : mapr (fun l : string * val => as_float fmt (snd l)) prof = Ok (map Qred ws)).
  { unfold prof. clear -Hw Hs. assert (H : forall q, In q ws -> survives fmt (Q2Qc q)) by exact Hw.
    clear Hw. induction ws as [|q l IH]; [easy|]. cbn [map combine mapr snd as_float].
    destruct (survives_text fmt q Hs) as (_ & H1 & _); [apply H; now left|]. rewrite H1. cbn [bind].
    rewrite IH by (intros y Hy; apply H; now right). cbn [bind map]. reflexivity. }
  rewrite Em. cbn [bind]. unfold param_value.
  rewrite (param_absent "profile_time_steps"%string) by (apply Hpk; easy).
  rewrite (param_absent "start_date"%string) by (apply Hpk; easy).
  cbn [find fst snd]. change (keqb "start_date"%string "profile_time_steps"%string) with false.
  change (keqb "profile_time_steps"%string "profile_time_steps"%string) with true.
  change (keqb "start_date"%string "start_date"%string) with true. cbn iota. cbn [bind snd as_text].
  unfold as_span, as_date. rewrite Hsp, Hd. reflexivity.
Qed.

(** ** Empirical distributions *)
Lemma empirical_columns fmt values dist : length values = length dist ->
  column 0 (map (fun '(v, q) => [show fmt v; show fmt (vq q)]) (combine values dist)) = map (show fmt) values /\
  column 1 (map (fun '(v, q) => [show fmt v; show fmt (vq q)]) (combine values dist)) = map (show fmt) (map vq dist).
Proof.
  unfold column. rewrite !map_map. revert dist; induction values as [|v l IH]; intros [|q dist]; cbn [length]; intros H; try easy.
  cbn [combine map nth]. destruct (IH dist) as [-> ->]; [lia|]. easy.
Qed.

Lemma empirical_round_trip g fmt values dist seed tab : sane fmt -> save_empirical fmt values dist = Ok tab ->
  clean_values fmt values -> (forall q, In q dist -> survives fmt (Q2Qc q)) ->
  load_empirical g fmt tab seed =
    Ok (GNumpy (NpChoice values (Some (map (fun q => Some (Qred q)) dist))) (random_state g seed) None).
Proof.
  intros Hs E Hv Hd. unfold save_empirical in E. destruct (Qltb _ _); [|easy].
  destruct (Nat.eqb_spec (length values) (length dist)) as [Hl|]; [|easy]. injection E as <-.
  unfold load_empirical, empirical_table. destruct (empirical_columns fmt values dist Hl) as [-> ->].
  rewrite (read_clean fmt Hs values Hv).
  rewrite (read_clean fmt Hs (map vq dist)).
  - assert (Em : mapr (as_float fmt) (map vq dist) = Ok (map Qred dist)).
    { clear. induction dist as [|q l IH]; [easy|]. cbn [map mapr as_float vq bind]. rewrite IH. reflexivity. }
    rewrite Em. cbn [bind]. now rewrite map_map.
  - left. intros v Hin. apply in_map_iff in Hin as (q & <- & Hq). right. exists (Q2Qc q). auto.
Qed.

(** ** One generator *)
Lemma save_generator_spec db ns id x n n' : save_generator db ns id x n = (Ok tt, n') -> savable x /\
  forall g, exists y, load_gen g (gen_class x) n' (gen_folder db ns (gen_class x) ++ [json_name id]) = Ok y /\ reloads g x y.
Proof.
  unfold save_generator, bindF. intros E.
  destruct (sys (fun n0 => ensure_folder_exists n0 (gen_folder db ns (gen_class x))) n) as [[[]|e] n1]; [|easy].
  destruct (gen_json x) as [j|e] eqn:Ej; [|easy].
  assert (Hs : savable x) by (destruct x; cbn in Ej; easy).
  split; [exact Hs|]. intros g. unfold sys in E.
  destruct (write_file n1 (gen_folder db ns (gen_class x) ++ [json_name id]) (Json j)) as [n2|] eqn:Ew; [|easy].
  injection E as <-. destruct (write_see _ _ _ _ Ew) as (_ & H & _).
  eapply load_gen_reloads; [exact Ej|exact Hs|]. unfold see in H.
  destruct (lookup n2 _) as [[c|es]|]; try easy. now injection H as ->.
Qed.

Lemma save_generator_total db ns id x n : savable x ->
  let folder := gen_folder db ns (gen_class x) in
  (forall q c, at_or_above folder q -> see n q <> AFile c) -> see n (folder ++ [json_name id]) <> ADir ->
  exists n', save_generator db ns id x n = (Ok tt, n').
Proof.
  intros Hs folder Hf Hd. unfold save_generator. fold folder. destruct (savable_json _ Hs) as [j ->].
  unfold bindF. assert (H1 : exists n1, ensure_folder_exists n folder = Ok n1 /\ see n1 folder = ADir /\ see n1 (folder ++ [json_name id]) <> ADir).
  { unfold ensure_folder_exists. destruct (path_exists n folder) eqn:Ex.
    - exists n. split; [easy|]. split; [|exact Hd]. apply path_exists_see in Ex.
      destruct (see n folder) as [|c|] eqn:E; [easy| |easy]. exfalso. apply (Hf folder c); [|exact E]. exists []. now rewrite app_nil_r.
    - destruct (make_path_total n folder) as [n1 E1].
      { intros q c Hq _. now apply Hf. }
      assert (E2 : os_makedirs n folder = Ok n1) by (unfold os_makedirs; now rewrite Ex).
      exists n1. split; [exact E2|]. destruct (makedirs_see _ _ _ E2) as (_ & H2 & H3). split.
      + apply H2. exists []. now rewrite app_nil_r.
      + rewrite H3; [exact Hd|]. intros [r Hr]. apply (f_equal (@length string)) in Hr. rewrite !app_length in Hr. cbn in Hr. lia. }
  destruct H1 as (n1 & E1 & Ha & Hb). unfold sys at 1. rewrite E1. unfold sys.
  destruct (write_total n1 folder (json_name id) (Json j) Ha Hb) as [n2 E2]. rewrite E2. eauto.
Qed.

(** ** Whatever happens while saving, nothing else changes *)
Lemma local_outside {A} p (m m' : F A) n t r n' : local p m m' -> lookup n p = Some t -> m n = (r, n') ->
  forall q, ~ at_or_below p q -> see n' q = see n q.
Proof.
  intros H L E q Hq. rewrite (H n t L) in E. unfold lifted in E. injection E as _ <-.
  now apply (graft_see n p _ t L).
Qed.

Lemma save_content_local fmt db c : exists m', local (namespace_folder db (c_name c)) (save_content fmt db c) m'.
Proof.
  set (folder := namespace_folder db (c_name c)).
  exists (do _ := sys (fun n => write_file n ["circus_config.json"%string]
                          (Json (JConfig (c_master_seed c) (show_date fmt (c_start c)) (show_span fmt (c_step c))))) in
      do _ := foreachF (save_pop_at fmt (c_world c) []) (w_pop_names (c_world c)) in
      foreachF (fun x => match nth_error (w_gens (c_world c)) (snd x) with
                         | None => raiseF Unmodelled | Some g => save_gen_at [] (fst x, g) end) (w_gen_names (c_world c))).
  unfold save_content.
  apply local_bind; [apply (local_sys folder _ (fun n y => write_file n y _) (write_local _)); easy|intros _].
  apply local_bind.
  - intros m t Lm. rewrite (foreachF_ext _ (save_pop_at fmt (c_world c) folder)) by (intros; apply save_pop_item_at).
    apply (local_foreach folder); [|exact Lm]. intros x. unfold save_pop_at. destruct (nth_error _ _); [|apply local_raise].
    apply save_population_local. easy.
  - intros _. apply local_foreach. intros x. unfold save_gen_item. destruct (nth_error _ _); [|apply local_raise].
    rewrite save_generator_at. apply save_gen_local.
Qed.

Lemma save_outside fmt db c ow n r n' : save_to_db fmt db c ow n = (r, n') ->
  let folder := namespace_folder db (c_name c) in
  forall q, ~ at_or_below folder q -> ~ at_or_above folder q -> see n' q = see n q.
Proof.
  intros E folder q Hb Ha. rewrite save_to_db_split in E. unfold bindF in E. fold folder in E.
  assert (Hne : folder <> []) by apply namespace_not_root.
  destruct (clear_namespace folder ow n) as [[[]|e] n1] eqn:E1.
  - destruct (clear_namespace_ok folder ow n n1 Hne E1) as (L & Hout & _).
    destruct (save_content_local fmt db c) as [m' Hm]. fold folder in Hm.
    rewrite (local_outside _ _ _ _ _ _ _ Hm L E q Hb). now apply Hout.
  - injection E as _ <-. unfold clear_namespace, bindF in E1.
    assert (Hx : forall m, snd (sys (fun n0 => ensure_folder_exists n0 folder) m) = n1 -> fst (sys (fun n0 => ensure_folder_exists n0 folder) m) = Err e -> n1 = m).
    { intros m <-. unfold sys. destruct (ensure_folder_exists m folder); easy. }
    destruct (path_exists n folder).
    + destruct ow; [|now injection E1 as _ <-].
      destruct (ensure_non_existing_spec n folder Hne) as (n0 & E0 & _ & Hout). unfold sys at 1 in E1. rewrite E0 in E1.
      rewrite (Hx n0); [now apply Hout|now rewrite E1|now rewrite E1].
    + rewrite (Hx n); [easy|now rewrite E1|now rewrite E1].
Qed.

Lemma save_refused fmt db c n : see n (namespace_folder db (c_name c)) <> Nothing ->
  save_to_db fmt db c false n = (Err OSError, n).
Proof.
  intros H. unfold save_to_db. cbv zeta. unfold bindF at 1. destruct (path_exists n (namespace_folder db (c_name c))) eqn:Ex; [easy|].
  apply path_missing_see in Ex. contradiction.
Qed.

Lemma save_independent fmt db c ow1 ow2 n1 n2 n1' n2' : clean_circus fmt c ->
  save_to_db fmt db c ow1 n1 = (Ok tt, n1') -> save_to_db fmt db c ow2 n2 = (Ok tt, n2') ->
  forall q, at_or_below (namespace_folder db (c_name c)) q -> see n1' q = see n2' q.
Proof.
  intros Hc E1 E2 q [r ->]. destruct (save_lookup _ _ _ _ _ _ Hc E1) as [L1 _]. destruct (save_lookup _ _ _ _ _ _ Hc E2) as [L2 _].
  now rewrite (see_app _ _ _ _ L1), (see_app _ _ _ _ L2).
Qed.
