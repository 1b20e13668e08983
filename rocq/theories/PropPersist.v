(** Properties of persistence (C63, C64, C70-C73, C95-C97).  See SpecPersist.v for the vocabulary. *)
From Verif Require Import Base BaseFacts Rng Utils Relationship SpecRelationship Frame Gens Clock Attribute World Circus Fs SpecFs FsFacts
  SpecWorld WorldProps PopFacts NamesKept Persist SpecPersist PersistFacts PersistRel PersistFs PersistTree PersistSave PersistLoad PersistCircus PersistMore
  Samples StorySamples PropOps PersistSamples.

(** ** C63.  A saved and reloaded sequential generator is the same generator: it continues the
    sequence where the original was. *)
Theorem C63_sequence_continues g db ns id counter prefix max_length n n' :
  save_generator db ns id (GSeq counter prefix max_length) n = (Ok tt, n') ->
  exists y, load_gen g "SequencialGenerator" n' (gen_folder db ns "SequencialGenerator" ++ [json_name id]) = Ok y /\
    forall size, gen_step y size = gen_step (GSeq counter prefix max_length) size.
Proof.
  intros E. destruct (save_generator_spec _ _ _ _ _ _ E) as [_ H]. destruct (H g) as (y & Ey & ->).
  exists (GSeq counter prefix max_length). auto.
Qed.
Print Assumptions C63_sequence_continues.

(** Saving succeeds unless a file or directory is in the way. *)
Theorem C63_saving_succeeds db ns id x n : savable x ->
  let folder := gen_folder db ns (gen_class x) in
  (forall q c, at_or_above folder q -> see n q <> AFile c) -> see n (folder ++ [json_name id]) <> ADir ->
  exists n', save_generator db ns id x n = (Ok tt, n').
Proof. exact (save_generator_total db ns id x n). Qed.
Print Assumptions C63_saving_succeeds.

Example C63_example : exists n' y ids z,
  save_generator ["db"%string] "ns" "people" (GSeq 7 "P" 3) (Dir []) = (Ok tt, n') /\
  load_gen stream "SequencialGenerator" n' ["db"; "ns"; "generators"; "SequencialGenerator"; "people.json"]%string = Ok y /\
  gen_step y 2 = Ok (ids, z) /\ ids = [s_ "P007"; s_ "P008"].
Proof. eexists _, _, _, _. repeat split; reflexivity. Qed.

(** ** C64.  A saved and reloaded numpy generator does not produce the values the original would:
    it restarts from seed 1234, whatever the saved state. *)
Theorem C64_refuted : exists g db ns id m state n n' y size,
  save_generator db ns id (GNumpy m state None) n = (Ok tt, n') /\
  load_gen g "NumpyRandomGenerator" n' (gen_folder db ns "NumpyRandomGenerator" ++ [json_name id]) = Ok y /\
  rmap fst (gen_step y size) <> rmap fst (gen_step (GNumpy m state None) size).
Proof.
  exists stream, ["db"%string], "ns"%string, "noise"%string, NpUniform, (random_state stream 7), (Dir []).
  exists (snd (save_generator ["db"%string] "ns" "noise" (GNumpy NpUniform (random_state stream 7) None) (Dir []))).
  exists (GNumpy NpUniform (random_state stream 7) (Some (random_state stream 1234))), 1%Z.
  split; [reflexivity|]. split; [reflexivity|]. intros H.
  apply (f_equal (fun r => match r with Ok [VNum q] => Qnum (this q) | _ => 0%Z end)) in H.
  vm_compute in H. discriminate.
Qed.
Print Assumptions C64_refuted.

Theorem C64_restarts_from_1234 g db ns id m state bound n n' :
  save_generator db ns id (GNumpy m state bound) n = (Ok tt, n') ->
  exists y, load_gen g "NumpyRandomGenerator" n' (gen_folder db ns "NumpyRandomGenerator" ++ [json_name id]) = Ok y /\
    forall size, rmap fst (gen_step y size) = rmap fst (np_generate m size (random_state g 1234)).
Proof.
  intros E. destruct (save_generator_spec _ _ _ _ _ _ E) as [_ H]. destruct (H g) as (y & Ey & Hy). cbn [reloads] in Hy.
  exists y. split; [exact Ey|]. subst y. intros size. cbn [gen_step].
  destruct (np_generate m size (random_state g 1234)) as [[vs st]|]; reflexivity.
Qed.
Print Assumptions C64_restarts_from_1234.

(** ** C70.  A reloaded relationship has the same relations and seed.  It holds for clean
    relationships only; see [clean_rel]. *)
Theorem C70_round_trip_partial g fmt r : sane fmt -> reachable r -> clean_rel fmt r ->
  exists r', load_rel g fmt (rel_table fmt r) = Ok r' /\ same_relations r r' /\
    r_state r' = random_state g (r_seed r) /\ reachable r'.
Proof. exact (rel_round_trip g fmt r). Qed.
Print Assumptions C70_round_trip_partial.

Lemma not_na s : is_na_text s = false -> ~ In s na_texts.
Proof. intros H1 H2. apply mem_In in H2. unfold is_na_text in H1. congruence. Qed.

Lemma shop_clean : clean_rel plain shop.
Proof.
  assert (E : stored shop = [(s_ "A", s_ "x", 1%Q); (s_ "A", s_ "z", 1%Q); (s_ "A", s_ "t", 0%Q); (s_ "B", s_ "y", 2%Q)]) by (vm_compute; reflexivity).
  unfold clean_rel, rel_ids. rewrite E. cbn [flat_map app]. split; [easy|]. split; [|split].
  - right. split.
    + intros v Hv. right. cbn [In] in Hv. decompose [or] Hv; try contradiction; subst v;
      eexists; (split; [reflexivity|]); apply not_na; vm_compute; reflexivity.
    + exists "A"%string. split; [now left|reflexivity].
  - cbn [In]. intros H. decompose [or] H; try contradiction; discriminate.
  - intros f t w H. cbn [In] in H. destruct H as [H|[H|[H|[H|[]]]]]; injection H as <- <- <-; vm_compute; reflexivity.
Qed.

Example C70_example : sane plain /\ reachable shop /\ clean_rel plain shop /\ length (stored shop) = 4 /\
  exists r', load_rel stream plain (rel_table plain shop) = Ok r' /\ same_relations shop r'.
Proof.
  split; [exact plain_sane|]. split; [exact shop_reachable|]. split; [exact shop_clean|]. split; [vm_compute; reflexivity|].
  destruct (C70_round_trip_partial stream plain shop plain_sane shop_reachable shop_clean) as (r' & H1 & H2 & _). eauto.
Qed.

(** A relationship without relations cannot be loaded. *)
Theorem C70_empty_refuted g fmt seed : sane fmt ->
  load_rel g fmt (rel_table fmt (new_relationship g seed)) = Err KeyError.
Proof.
  intros Hs. unfold rel_table. change (get_relations (new_relationship g seed) None) with (@nil (val * val * Q)).
  cbn [stack_lines app]. unfold load_rel, read_lines, seed_line, column. cbn [map nth].
  change (r_seed (new_relationship g seed)) with seed.
  assert (E : forall z, read_column fmt [show fmt (vz z)] = [vz z]).
  { intros z. change [show fmt (vz z)] with (map (show fmt) [vz z]). apply read_clean; [exact Hs|]. left.
    intros v [<-|[]]. right. eexists. split; [reflexivity|]. apply (integers_survive fmt Hs). }
  rewrite !E. cbn [combine map find l_param filter].
  change (keqb "seed"%string "seed"%string) with true. change (keqb "seed"%string "relations"%string) with false. reflexivity.
Qed.
Print Assumptions C70_empty_refuted.

Definition numbered : relationship :=
  ok_or empty_rel (add_relations empty_rel [s_ "1"; s_ "2"] [s_ "3"; s_ "4"] (WArray [1; 1]%Q)).
Definition with_na : relationship :=
  ok_or empty_rel (add_relations empty_rel [s_ "A"; s_ "B"] [s_ "x"; s_ "NA"] (WArray [1; 1]%Q)).

(** Text ids made of digits come back as numbers; a relation whose "to" is the text "NA" comes back
    without its "to". *)
Theorem C70_ids_refuted :
  (exists r r', reachable r /\ load_rel stream plain (rel_table plain r) = Ok r' /\
     (exists w, In (s_ "1", s_ "3", w) (stored r)) /\ ~ exists w, In (s_ "1", s_ "3", w) (stored r')) /\
  (exists r r', reachable r /\ load_rel stream plain (rel_table plain r) = Ok r' /\
     (exists w, In (s_ "B", s_ "NA", w) (stored r)) /\ exists w, In (s_ "B", VNA, w) (stored r')).
Proof.
  split.
  - exists numbered, (ok_or empty_rel (load_rel stream plain (rel_table plain numbered))).
    split; [apply (reach_add empty_rel [s_ "1"; s_ "2"] [s_ "3"; s_ "4"] (WArray [1; 1]%Q)); [apply reach_new|reflexivity]|].
    split; [apply ok_eq1; vm_compute; reflexivity|]. split.
    + exists 1%Q. vm_compute. now left.
    + intros [w H]. vm_compute in H. decompose [or] H; try contradiction; discriminate.
  - exists with_na, (ok_or empty_rel (load_rel stream plain (rel_table plain with_na))).
    split; [apply (reach_add empty_rel [s_ "A"; s_ "B"] [s_ "x"; s_ "NA"] (WArray [1; 1]%Q)); [apply reach_new|reflexivity]|].
    split; [apply ok_eq1; vm_compute; reflexivity|]. split.
    + exists 1%Q. vm_compute. auto.
    + exists 1%Q. vm_compute. auto.
Qed.
Print Assumptions C70_ids_refuted.

(** ** C95.  The tables of attributes are read back exactly when each of their two columns holds
    numbers, booleans or texts that stay so. *)
Theorem C95_attribute_round_trip fmt t : sane fmt ->
  (load_attr fmt (attr_table fmt t) = Ok t <-> clean_values fmt (map fst t) /\ clean_values fmt (map snd t)).
Proof. intros Hs. exact (attr_round_trip fmt Hs t). Qed.
Print Assumptions C95_attribute_round_trip.

Example C95_example :
  load_attr plain (attr_table plain [(s_ "A", vz 3); (s_ "B", VNA)]) = Ok [(s_ "A", vz 3); (s_ "B", VNA)] /\
  load_attr plain (attr_table plain [(s_ "A", s_ "3"); (s_ "B", s_ "4")]) <> Ok [(s_ "A", s_ "3"); (s_ "B", s_ "4")] /\
  load_attr plain (attr_table plain [(s_ "A", s_ "True"); (s_ "B", s_ "False")]) = Ok [(s_ "A", VBool true); (s_ "B", VBool false)] /\
  load_attr plain (attr_table plain [(s_ "A", vz 3); (s_ "B", s_ "x")]) = Ok [(s_ "A", s_ "3"); (s_ "B", s_ "x")].
Proof. split; [vm_compute; reflexivity|]. split; [vm_compute; discriminate|]. split; vm_compute; reflexivity. Qed.

(** ** C71.  A reloaded population has the same ids in the same order, attributes and relations.
    It holds for clean populations only; see [clean_population].  [ls] is the order of os.listdir. *)
Theorem C71_round_trip_partial fmt ls w po folder n n1 :
  sane fmt -> (forall l, Permutation (ls l) l) -> clean_population fmt w po ->
  folder <> [] -> lookup n folder = None -> save_population fmt w po folder n = (Ok tt, n1) ->
  forall n2 w0, lookup n2 folder = lookup n1 folder ->
  exists w1 po', load_population_from fmt ls n2 folder w0 = (Ok (length (w_pops w0)), w1) /\
    w_pops w1 = w_pops w0 ++ [po'] /\ same_population w po w1 po' /\ fresh_relationships (w_prng w0) w1 po'.
Proof.
  intros Hs Hls Hc Hne L E n2 w0 L2.
  assert (L1 : lookup n1 folder = Some (pop_tree fmt w po)).
  { assert (Hm : exists m, make_path n folder = Ok m).
    { unfold save_population in E. unfold bindF at 1 in E. unfold sys at 1 in E. unfold ensure_non_existing_dir in E. rewrite L in E.
      unfold bindF at 1 in E. unfold sys at 1 in E. unfold os_makedirs, path_exists in E. rewrite L in E.
      destruct (make_path n folder) as [m|]; [eauto|discriminate]. }
    destruct Hm as [m Hm].
    rewrite (save_population_tree fmt w po folder n (clean_pop_ok _ _ _ Hc) Hne L m Hm (make_path_lookup _ _ _ Hm L)) in E.
    injection E as <-. eapply lookup_graft. eapply make_path_lookup; eauto. }
  rewrite L1 in L2.
  destruct (load_pop_loaded fmt ls n2 folder w po Hs Hls Hc L2 w0) as (w1 & po' & E1 & _ & Ep & _ & _ & _ & [H1 H2 _ _]).
  exists w1, po'. auto.
Qed.
Print Assumptions C71_round_trip_partial.

(** For the populations of a circus, only the values matter. *)
Theorem C71_every_circus g fmt w p po : built g w -> nth_error (w_pops w) p = Some po ->
  clean_ids fmt (p_ids po) ->
  (forall name t, attribute_of w po name = Some t -> clean_values fmt (map fst t) /\ clean_values fmt (map snd t)) ->
  (forall name r, relationship_of w po name = Some r -> clean_rel fmt r) ->
  clean_population fmt w po.
Proof.
  intros Hb Hp Hi Ha Hr. destruct (built_own g w Hb) as (O1 & O2 & _ & _ & O5). destruct (O5 p po Hp) as [Na Nr].
  split; auto.
  - intros name a Hin. specialize (O1 p po name a Hp (In_dget _ _ _ Na Hin)). apply nth_error_Some in O1.
    destruct (nth_error (w_attrs w) a); [eauto|easy].
  - intros name a Hin. specialize (O2 p po name a Hp (In_dget _ _ _ Nr Hin)). apply nth_error_Some in O2.
    destruct (nth_error (w_rels w) a); [eauto|easy].
  - intros name r E. split; [|now apply (Hr name)]. unfold relationship_of in E.
    destruct (dget name (p_rels po)) as [k|]; [|easy]. eapply built_reachable; eauto.
Qed.
Print Assumptions C71_every_circus.

(** Ids made of digits are lost: the reloaded population has other members. *)
Definition digits_pop : pop := mkPop [s_ "1"; s_ "2"] 2 [] [].
Theorem C71_ids_refuted : exists w po n1 w1 po',
  NoDup (p_ids po) /\ save_population plain w po ["p"%string] (Dir []) = (Ok tt, n1) /\
  load_population_from plain (fun l => l) n1 ["p"%string] w = (Ok 3, w1) /\ nth_error (w_pops w1) 3 = Some po' /\
  forall i, In i (p_ids po) -> ~ In i (p_ids po').
Proof.
  set (w := set_pops [digits_pop; digits_pop; digits_pop] people).
  exists w, digits_pop, (snd (save_population plain w digits_pop ["p"%string] (Dir []))).
  exists (snd (load_population_from plain (fun l => l) (snd (save_population plain w digits_pop ["p"%string] (Dir []))) ["p"%string] w)).
  exists (mkPop [vz 1; vz 2] 2 [] []).
  split; [repeat constructor; cbn; intuition discriminate|]. split; [vm_compute; reflexivity|]. split.
  - rewrite (ran 0) by (vm_compute; reflexivity). f_equal.
  - split; [vm_compute; reflexivity|]. intros i [<-|[<-|[]]] [H|[H|[]]]; discriminate.
Qed.
Print Assumptions C71_ids_refuted.

(** ** C72.  load_from_db after save_to_db restores the master seed, the clock parameters, the
    populations and the generators.  It holds for clean circuses only; see [clean_circus].  The clock
    and the seeds restart, and there is no story. *)
Theorem C72_round_trip_partial fmt ls g db c ow n n1 :
  sane fmt -> (forall l, Permutation (ls l) l) -> clean_circus fmt c ->
  save_to_db fmt db c ow n = (Ok tt, n1) ->
  forall n2, lookup n2 (namespace_folder db (c_name c)) = lookup n1 (namespace_folder db (c_name c)) ->
  exists c', load_from_db fmt ls g n2 db (c_name c) = Ok c' /\ same_circus g c c'.
Proof.
  intros Hs Hls Hc E n2 L2. destruct (save_lookup _ _ _ _ _ _ Hc E) as [L1 _].
  apply (load_circus_spec fmt ls g n2 db c Hs Hls Hc). now rewrite L2.
Qed.
Print Assumptions C72_round_trip_partial.

Theorem C72_saving_succeeds fmt db c ow n : clean_circus fmt c ->
  let folder := namespace_folder db (c_name c) in
  (forall q x, at_or_above folder q -> q <> folder -> see n q <> AFile x) -> (ow = true \/ see n folder = Nothing) ->
  exists n', save_to_db fmt db c ow n = (Ok tt, n').
Proof. exact (save_ok fmt db c ow n). Qed.
Print Assumptions C72_saving_succeeds.

(** For a circus made with the library, only values and ids matter. *)
Theorem C72_every_circus g fmt c : built g (c_world c) ->
  w_pop_names (c_world c) <> [] ->
  (forall name p, In (name, p) (w_pop_names (c_world c)) -> exists po, nth_error (w_pops (c_world c)) p = Some po /\
     clean_ids fmt (p_ids po) /\
     (forall a t, attribute_of (c_world c) po a = Some t -> clean_values fmt (map fst t) /\ clean_values fmt (map snd t)) /\
     (forall a r, relationship_of (c_world c) po a = Some r -> clean_rel fmt r)) ->
  (forall id k, In (id, k) (w_gen_names (c_world c)) -> no_dot id /\ exists x, nth_error (w_gens (c_world c)) k = Some x /\ savable x) ->
  read_date fmt (show_date fmt (c_start c)) = Some (c_start c) ->
  read_span fmt (show_span fmt (c_step c)) = Some (c_step c) ->
  clean_circus fmt c.
Proof.
  intros Hb Hne Hp Hg Hd Hs. destruct (built_names g _ Hb) as (_ & N2 & N3). split; auto.
  intros name p Hin. destruct (Hp name p Hin) as (po & E & H1 & H2 & H3). exists po. split; [exact E|].
  eapply C71_every_circus; eauto.
Qed.
Print Assumptions C72_every_circus.

(** A circus that meets the hypotheses: population, attribute, relationship and two generators. *)
Definition bazaar : circus :=
  mkCircus "bazaar" 5 0 3600
    (calls market [CNewGen (GSeq 3 "P" 4); CNewGen (GNumpy NpUniform (random_state stream 7) None);
                   CAttachGenerator "ids" 3; CAttachGenerator "noise" 4]).
Lemma bazaar_built : built stream (c_world bazaar).
Proof. unfold bazaar. cbn [c_world]. apply built_calls; [exact market_built|]. repeat constructor. Qed.

Lemma bazaar_clean : clean_circus plain bazaar.
Proof.
  apply (C72_every_circus stream); [exact bazaar_built|vm_compute; discriminate| | |vm_compute; reflexivity|vm_compute; reflexivity].
  - assert (E : w_pop_names (c_world bazaar) = [("people"%string, 0)]) by (vm_compute; reflexivity). rewrite E.
    intros name p [[= <- <-]|[]]. exists (mkPop [s_ "A"; s_ "B"; s_ "C"] 3 [("AGE"%string, 0)] [("items"%string, 0)]).
    split; [vm_compute; reflexivity|]. split; [|split].
    + right. split.
      * intros v Hv. right. cbn [p_ids In] in Hv. decompose [or] Hv; try contradiction; subst v;
        eexists; (split; [reflexivity|]); apply not_na; vm_compute; reflexivity.
      * exists "A"%string. split; [now left|reflexivity].
    + intros a t H. unfold attribute_of in H. cbn [p_attrs dget] in H. destruct (keqb a "AGE"%string); [|discriminate].
      assert (E2 : nth_error (w_attrs (c_world bazaar)) 0 = Some [(s_ "A", vz 31); (s_ "B", vz 42); (s_ "C", vz 53)]) by (vm_compute; reflexivity).
      rewrite E2 in H. injection H as <-. cbn [map fst snd]. split.
      * right. right. split; [split|].
        -- intros v Hv. right. cbn [In] in Hv. decompose [or] Hv; try contradiction; subst v;
           eexists; (split; [reflexivity|]); apply not_na; vm_compute; reflexivity.
        -- exists "A"%string. split; [now left|reflexivity].
        -- exists "A"%string. split; [now left|reflexivity].
      * left. intros v Hv. right. cbn [In] in Hv. decompose [or] Hv; try contradiction; subst v;
        eexists; (split; [reflexivity|]); apply (integers_survive plain plain_sane).
    + intros a r H. unfold relationship_of in H. cbn [p_rels dget] in H. destruct (keqb a "items"%string); [|discriminate].
      assert (E2 : option_map stored (nth_error (w_rels (c_world bazaar)) 0) =
        Some [(s_ "A", s_ "x", 1%Q); (s_ "A", s_ "z", 1%Q); (s_ "A", s_ "t", 1%Q); (s_ "B", s_ "y", 1%Q)]) by (vm_compute; reflexivity).
      rewrite H in E2. cbn [option_map] in E2. injection E2 as E2. unfold clean_rel, rel_ids. rewrite E2. cbn [flat_map app].
      split; [easy|]. split; [|split].
      * right. split.
        -- intros v Hv. right. cbn [In] in Hv. decompose [or] Hv; try contradiction; subst v;
           eexists; (split; [reflexivity|]); apply not_na; vm_compute; reflexivity.
        -- exists "A"%string. split; [now left|reflexivity].
      * cbn [In]. intros Hz. decompose [or] Hz; try contradiction; discriminate.
      * intros f t w Hz. cbn [In] in Hz. destruct Hz as [Hz|[Hz|[Hz|[Hz|[]]]]]; injection Hz as <- <- <-; vm_compute; reflexivity.
  - assert (E : w_gen_names (c_world bazaar) = [("ids"%string, 3); ("noise"%string, 4)]) by (vm_compute; reflexivity). rewrite E.
    intros id k [[= <- <-]|[[= <- <-]|[]]].
    + split; [cbn; repeat split; discriminate|]. exists (GSeq 3 "P" 4). split; [reflexivity|exact I].
    + split; [cbn; repeat split; discriminate|]. exists (GNumpy NpUniform (random_state stream 7) None). split; [reflexivity|exact I].
Qed.

Example C72_example : exists n1 c', save_to_db plain ["db"%string] bazaar false (Dir []) = (Ok tt, n1) /\
  load_from_db plain (fun l => l) stream n1 ["db"%string] "bazaar" = Ok c' /\ same_circus stream bazaar c' /\
  clean_circus plain bazaar.
Proof.
  destruct (C72_saving_succeeds plain ["db"%string] bazaar false (Dir []) bazaar_clean) as [n1 E].
  - intros [|a [|b q]] x H1 H2; cbn; try discriminate.
  - right. reflexivity.
  - destruct (C72_round_trip_partial plain (fun l => l) stream ["db"%string] bazaar false (Dir []) n1 plain_sane
                (fun l => Permutation_refl l) bazaar_clean E n1 eq_refl) as (c' & E2 & H).
    exists n1, c'. split; [exact E|]. split; [exact E2|]. split; [exact H|exact bazaar_clean].
Qed.

(** Without population, with a dot in a generator id, or with a saved timer profile, a circus that was
    saved cannot be loaded. *)
Definition with_gen (id : string) : circus :=
  mkCircus "bazaar" 5 0 3600 (calls people [CNewGen (GSeq 3 "P" 4); CAttachGenerator id 3]).
Theorem C72_reload_refuted :
  (exists c n1, built stream (c_world c) /\ w_pop_names (c_world c) = [] /\
     save_to_db plain ["db"%string] c false (Dir []) = (Ok tt, n1) /\
     load_from_db plain (fun l => l) stream n1 ["db"%string] (c_name c) = Err OSError) /\
  (exists c n1, built stream (c_world c) /\ generator_named (c_world c) "v1.0" = Some (GSeq 3 "P" 4) /\
     save_to_db plain ["db"%string] c false (Dir []) = (Ok tt, n1) /\
     load_from_db plain (fun l => l) stream n1 ["db"%string] (c_name c) = Err OSError) /\
  (exists c n1 n2 p, clean_circus plain c /\ save_to_db plain ["db"%string] c false (Dir []) = (Ok tt, n1) /\
     save_timer_gen plain ["db"%string] (c_name c) "weekly" p n1 = (Ok tt, n2) /\
     load_from_db plain (fun l => l) stream n2 ["db"%string] (c_name c) = Err ValueError).
Proof.
  split; [|split].
  - exists (mkCircus "empty" 5 0 3600 (new_circus stream 5 0 3600)). eexists.
    split; [apply built_new|]. split; [reflexivity|]. split; vm_compute; reflexivity.
  - exists (with_gen "v1.0"). eexists (snd (save_to_db plain ["db"%string] (with_gen "v1.0") false (Dir []))).
    split; [|split; [reflexivity|split]].
    + unfold with_gen. cbn [c_world]. apply built_calls; [|repeat constructor]. unfold people. apply built_calls; [apply built_new|]. repeat constructor.
    + vm_compute. reflexivity.
    + vm_compute. reflexivity.
  - exists bazaar, (snd (save_to_db plain ["db"%string] bazaar false (Dir []))).
    exists (snd (save_timer_gen plain ["db"%string] "bazaar" "weekly" (mkProfile [1%Q; 2%Q] 3600 0) (snd (save_to_db plain ["db"%string] bazaar false (Dir []))))).
    exists (mkProfile [1%Q; 2%Q] 3600 0). split; [exact bazaar_clean|]. split; [|split].
    + destruct (C72_saving_succeeds plain ["db"%string] bazaar false (Dir []) bazaar_clean) as [n1 E].
      * intros [|a [|b q]] x H1 H2; cbn; try discriminate.
      * right. reflexivity.
      * now rewrite E.
    + assert (H : fst (save_timer_gen plain ["db"%string] "bazaar" "weekly" (mkProfile [1%Q; 2%Q] 3600 0) (snd (save_to_db plain ["db"%string] bazaar false (Dir [])))) = Ok tt) by (vm_compute; reflexivity).
      change (c_name bazaar) with "bazaar"%string.
      destruct (save_timer_gen _ _ _ _ _ _) as [r m]. cbn [fst snd] in H |- *. now subst r.
    + vm_compute. reflexivity.
Qed.
Print Assumptions C72_reload_refuted.

(** ** C73.  save_to_db refuses an existing namespace unless told to overwrite it; then nothing of the
    old one remains; nothing else changes, whatever the outcome. *)
Theorem C73_refuses fmt db c n : see n (namespace_folder db (c_name c)) <> Nothing ->
  save_to_db fmt db c false n = (Err OSError, n).
Proof. exact (save_refused fmt db c n). Qed.
Print Assumptions C73_refuses.

Theorem C73_nothing_remains fmt db c ow1 ow2 n1 n2 n1' n2' : clean_circus fmt c ->
  save_to_db fmt db c ow1 n1 = (Ok tt, n1') -> save_to_db fmt db c ow2 n2 = (Ok tt, n2') ->
  forall q, at_or_below (namespace_folder db (c_name c)) q -> see n1' q = see n2' q.
Proof. exact (save_independent fmt db c ow1 ow2 n1 n2 n1' n2'). Qed.
Print Assumptions C73_nothing_remains.

Theorem C73_nothing_else_changes fmt db c ow n r n' : save_to_db fmt db c ow n = (r, n') ->
  forall q, ~ at_or_below (namespace_folder db (c_name c)) q -> ~ at_or_above (namespace_folder db (c_name c)) q ->
  see n' q = see n q.
Proof. exact (save_outside fmt db c ow n r n'). Qed.
Print Assumptions C73_nothing_else_changes.

Definition old_db : node doc :=
  Dir [("db"%string, Dir [("bazaar"%string, Dir [("old"%string, File (Csv []))]); ("other"%string, File (Csv []))])].
Example C73_example : see old_db (namespace_folder ["db"%string] (c_name bazaar)) <> Nothing /\
  exists n', save_to_db plain ["db"%string] bazaar true old_db = (Ok tt, n') /\
    see n' ["db"; "bazaar"; "old"]%string = Nothing /\ see n' ["db"; "other"]%string = AFile (Csv []).
Proof.
  split; [vm_compute; discriminate|]. exists (snd (save_to_db plain ["db"%string] bazaar true old_db)).
  split; [|split; vm_compute; reflexivity].
  assert (H : fst (save_to_db plain ["db"%string] bazaar true old_db) = Ok tt) by (vm_compute; reflexivity).
  destruct (save_to_db plain ["db"%string] bazaar true old_db) as [r m]. cbn in H |- *. now subst r.
Qed.

(** Overwriting is not atomic: when a generator cannot be saved the call raises, and the old
    namespace is lost although the new one is incomplete. *)
Definition with_constant : circus :=
  mkCircus "bazaar" 5 0 3600 (calls people [CAttachGenerator "one" 0]).
Theorem C73_not_atomic : exists c n n', built stream (c_world c) /\
  save_to_db plain ["db"%string] c true n = (Err TypeError, n') /\
  see n ["db"; "bazaar"; "old"]%string = AFile (Csv []) /\ see n' ["db"; "bazaar"; "old"]%string = Nothing.
Proof.
  exists with_constant, old_db, (snd (save_to_db plain ["db"%string] with_constant true old_db)).
  split.
  - unfold with_constant. cbn [c_world]. apply built_calls; [|repeat constructor]. unfold people. apply built_calls; [apply built_new|]. repeat constructor.
  - split; [|split; vm_compute; reflexivity].
    assert (H : fst (save_to_db plain ["db"%string] with_constant true old_db) = Err TypeError) by (vm_compute; reflexivity).
    destruct (save_to_db plain ["db"%string] with_constant true old_db) as [r m]. cbn in H |- *. now subst r.
Qed.
Print Assumptions C73_not_atomic.

(** ** C96.  A timer profile written with save_to is read back: same weights, step and start. *)
Theorem C96_profile_round_trip fmt p : sane fmt -> p_weights p <> [] ->
  (forall q, In q (p_weights p) -> survives fmt (Q2Qc q)) ->
  read_date fmt (show_date fmt (p_start p)) = Some (p_start p) ->
  read_span fmt (show_span fmt (p_step p)) = Some (p_step p) ->
  ~ In (show_date fmt (p_start p)) na_texts -> ~ In (show_span fmt (p_step p)) na_texts ->
  read_num fmt (show_date fmt (p_start p)) = None ->
  exists p', load_profile fmt (profile_table fmt p) = Ok p' /\ p_start p' = p_start p /\ p_step p' = p_step p /\
    Forall2 Qeq (p_weights p') (p_weights p).
Proof.
  intros. eexists. split; [now apply profile_round_trip|]. split; [reflexivity|]. split; [reflexivity|].
  cbn [p_weights]. clear. induction (p_weights p) as [|q l IH]; cbn; constructor; [apply Qred_correct|exact IH].
Qed.
Print Assumptions C96_profile_round_trip.

Example C96_example : exists p', load_profile plain (profile_table plain (mkProfile [1%Q; (1 # 2)%Q; 0%Q] 3600 86400)) = Ok p' /\
  p_start p' = 86400%Z /\ p_step p' = 3600%Z /\ p_weights p' = [1%Q; (1 # 2)%Q; 0%Q].
Proof. eexists. split; [vm_compute; reflexivity|]. auto. Qed.

(** ** C97.  An empirical distribution accepted by save_empirical_discrete_generator is reloaded as a
    generator choosing the same values with the same probabilities. *)
Theorem C97_empirical_round_trip g fmt values dist seed tab : sane fmt -> save_empirical fmt values dist = Ok tab ->
  clean_values fmt values -> (forall q, In q dist -> survives fmt (Q2Qc q)) ->
  exists ps, load_empirical g fmt tab seed = Ok (GNumpy (NpChoice values (Some (map Some ps))) (random_state g seed) None) /\
    Forall2 Qeq ps dist.
Proof.
  intros Hs E Hv Hd. exists (map Qred dist). split.
  - rewrite map_map. now apply empirical_round_trip.
  - clear. induction dist as [|q l IH]; cbn; constructor; [apply Qred_correct|exact IH].
Qed.
Print Assumptions C97_empirical_round_trip.

(** A distribution whose total exceeds one by a millionth or more is refused. *)
Theorem C97_excess_refused fmt values dist : (1 + (1 # 1000000) <= qsum dist)%Q -> save_empirical fmt values dist = Err AssertionError.
Proof.
  intros H. unfold save_empirical. destruct (Qltb (qsum dist - 1) (1 # 1000000)) eqn:E; [|reflexivity]. exfalso.
  unfold Qltb in E. apply negb_true_iff in E. apply not_true_iff_false in E. apply E. apply Qle_bool_iff.
  setoid_replace (1 # 1000000)%Q with (1 + (1 # 1000000) - 1)%Q by ring. apply Qplus_le_compat; [exact H|apply Qle_refl].
Qed.
Print Assumptions C97_excess_refused.

(** The check on saving only bounds the sum from above: a distribution of total 1/2 is accepted, and
    the reloaded generator raises at every use. *)
Theorem C97_check_refuted : exists values dist tab x, save_empirical plain values dist = Ok tab /\
  ~ (qsum dist == 1)%Q /\ load_empirical stream plain tab 7 = Ok x /\ gen_step x 1 = Err ValueError.
Proof.
  exists [s_ "a"; s_ "b"], [(1 # 4)%Q; (1 # 4)%Q]. eexists _, _.
  split; [reflexivity|]. split; [vm_compute; discriminate|]. split; [vm_compute; reflexivity|]. vm_compute. reflexivity.
Qed.
Print Assumptions C97_check_refuted.

Example C97_example : exists tab, save_empirical plain [s_ "a"; s_ "b"] [(1 # 4)%Q; (3 # 4)%Q] = Ok tab /\
  clean_values plain [s_ "a"; s_ "b"].
Proof.
  eexists. split; [reflexivity|]. apply column_exact; [exact plain_sane|]. vm_compute. reflexivity.
Qed.
