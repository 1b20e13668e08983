(** Loading what saving wrote: populations. *)
From Verif Require Import Base BaseFacts Rng Utils Relationship SpecRelationship Frame Gens Clock Attribute World Circus Fs SpecFs FsFacts
  Persist SpecPersist PersistFacts PersistRel PersistFs PersistTree.

Lemma clean_pop_ok fmt w po : clean_population fmt w po -> pop_ok w po.
Proof.
  intros [Ha Hr Na Nr _ _ _]. split; [|split; [|split; assumption]].
  - intros [name a] H. destruct (Ha name a H) as [t E]. cbn. now rewrite E.
  - intros [name a] H. destruct (Hr name a H) as [t E]. cbn. now rewrite E.
Qed.

Lemma dget_item_file tab l x : NoDup (map fst l) -> In x l ->
  dget (csv_name (fst x)) (map (item_file tab) l) = Some (snd (item_file tab x)).
Proof.
  induction l as [|y l IH]; cbn [map]; intros Hn H; [easy|]. inversion Hn as [|? ? Hy Hn']; subst.
  unfold item_file at 1. cbn [dget]. destruct (keqb_spec (csv_name (fst x)) (csv_name (fst y))) as [E|Ne].
  - apply csv_name_inj in E. destruct H as [->|H]; [reflexivity|]. exfalso. apply Hy. rewrite <- E. now apply in_map.
  - destruct H as [->|H]; [easy|]. now apply IH.
Qed.

Lemma dkeys_item_file tab l : dkeys (map (item_file tab) l) = map (fun x => csv_name (fst x)) l.
Proof. unfold dkeys. rewrite map_map. reflexivity. Qed.

(** The entries of [acc'] are those of [acc] and the positions of [xs] from [base] on. *)
Definition indexed {A} (base : nat) (xs : list (string * A)) (acc acc' : dict string nat) : Prop :=
  (forall i x, nth_error xs i = Some x -> dget (fst x) acc' = Some (base + i)) /\
  (forall name, ~ In name (map fst xs) -> dget name acc' = dget name acc).

Lemma indexed_cons {A} base x (xs : list (string * A)) acc acc' : ~ In (fst x) (map fst xs) ->
  indexed (S base) xs (dset (fst x) base acc) acc' -> indexed base (x :: xs) acc acc'.
Proof.
  intros Hx [H1 H2]. split.
  - intros [|i] y; cbn [nth_error].
    + intros [= <-]. rewrite H2 by exact Hx. rewrite dget_dset, keqb_refl. f_equal. lia.
    + intros E. rewrite (H1 i y E). f_equal. lia.
  - intros name Hn. cbn [map] in Hn. rewrite H2 by (intros H; apply Hn; now right).
    rewrite dget_dset. destruct (keqb_spec name (fst x)) as [->|]; [|easy]. exfalso. apply Hn. now left.
Qed.

Lemma load_attrs_spec fmt n dir (tbl : string * nat -> series) xs : NoDup (map fst xs) ->
  (forall x, In x xs -> read_csv n (dir ++ [csv_name (fst x)]) = Ok (attr_table fmt (tbl x)) /\
                        load_attr fmt (attr_table fmt (tbl x)) = Ok (tbl x)) ->
  forall acc w, exists acc',
    load_attrs fmt n dir (map (fun x => csv_name (fst x)) xs) acc w = (Ok acc', set_attrs (w_attrs w ++ map tbl xs) w) /\
    indexed (length (w_attrs w)) xs acc acc'.
Proof.
  induction xs as [|x xs IH]; intros Hn H acc w.
  - exists acc. split; [|split; [intros [|i] y; easy|easy]]. cbn. rewrite app_nil_r. now destruct w.
  - inversion Hn as [|? ? Hx Hn']; subst. cbn [map load_attrs].
    destruct (H x) as [H1 H2]; [now left|]. unfold bindM, lift, get, modify. rewrite H1, H2.
    destruct (IH Hn' (fun y Hy => H y (or_intror Hy)) (dset (drop4 (csv_name (fst x))) (length (w_attrs w)) acc)
                (set_attrs (w_attrs w ++ [tbl x]) w)) as (acc' & E & Hi).
    exists acc'. rewrite E. split.
    + f_equal. unfold set_attrs. cbn. now rewrite <- app_assoc.
    + apply indexed_cons; [exact Hx|]. rewrite drop4_csv in Hi. cbn in Hi.
      rewrite app_length, Nat.add_1_r in Hi. exact Hi.
Qed.

Lemma load_rels_spec fmt n dir (rel : string * nat -> relationship) (P : relationship -> relationship -> Prop) g xs :
  NoDup (map fst xs) ->
  (forall x, In x xs -> read_csv n (dir ++ [csv_name (fst x)]) = Ok (rel_table fmt (rel x)) /\
                        exists r', load_rel g fmt (rel_table fmt (rel x)) = Ok r' /\ P (rel x) r') ->
  forall acc w, w_prng w = g -> exists acc' rs,
    load_rels fmt n dir (map (fun x => csv_name (fst x)) xs) acc w = (Ok acc', set_rels (w_rels w ++ rs) w) /\
    indexed (length (w_rels w)) xs acc acc' /\ Forall2 (fun x r' => P (rel x) r') xs rs.
Proof.
  induction xs as [|x xs IH]; intros Hn H acc w Hg.
  - exists acc, []. split; [|split; [split; [intros [|i] y; easy|easy]|constructor]]. cbn. rewrite app_nil_r. now destruct w.
  - inversion Hn as [|? ? Hx Hn']; subst. cbn [map load_rels].
    destruct (H x) as [H1 (r' & H2 & HP)]; [now left|]. unfold bindM, lift, get, modify. rewrite H1, H2.
    destruct (IH Hn' (fun y Hy => H y (or_intror Hy)) (dset (drop4 (csv_name (fst x))) (length (w_rels w)) acc)
                (set_rels (w_rels w ++ [r']) w) eq_refl) as (acc' & rs & E & Hi & HF).
    exists acc', (r' :: rs). rewrite E. split; [|split].
    + f_equal. unfold set_rels. cbn. now rewrite <- app_assoc.
    + apply indexed_cons; [exact Hx|]. rewrite drop4_csv in Hi. cbn in Hi.
      rewrite app_length, Nat.add_1_r in Hi. exact Hi.
    + now constructor.
Qed.

Lemma indexed_dget {A} base (xs : list (string * A)) acc' name : indexed base xs [] acc' -> NoDup (map fst xs) ->
  match dget name acc' with
  | None => dget name xs = None
  | Some k => exists i a, k = base + i /\ nth_error xs i = Some (name, a) /\ dget name xs = Some a
  end.
Proof.
  intros [H1 H2] Hn. destruct (in_dec String.string_dec name (map fst xs)) as [Hi|Hi].
  - apply in_map_iff in Hi. destruct Hi as ([n' a] & <- & Hi). apply In_nth_error in Hi as [i Ei].
    rewrite (H1 i _ Ei). exists i, a. split; [easy|]. split; [easy|]. cbn [fst]. apply In_dget; [exact Hn|]. eapply nth_error_In; eauto.
  - rewrite H2 by exact Hi. cbn. now apply dget_None.
Qed.

Lemma dget_perm {V} (name : string) (a b : dict string V) : Permutation a b -> NoDup (map fst a) -> dget name a = dget name b.
Proof.
  intros Hp Hn. assert (Hn' : NoDup (map fst b)) by (eapply Permutation_NoDup; [apply Permutation_map; exact Hp|exact Hn]).
  destruct (dget name b) as [v|] eqn:E.
  - apply In_dget; [exact Hn|]. apply dget_In in E. eapply Permutation_in; [apply Permutation_sym; exact Hp|exact E].
  - apply dget_None in E. apply dget_None. intros H. apply E. eapply Permutation_in; [apply Permutation_map; exact Hp|exact H].
Qed.

(** The two directories of a population tree. *)
Lemma pop_tree_attributes fmt w po : lookup (pop_tree fmt w po) ["attributes"%string] =
  match p_attrs po with [] => None | _ => Some (Dir (map (item_file (attr_tab fmt w)) (p_attrs po))) end.
Proof.
  unfold pop_tree. cbn [lookup]. cbn [dget]. change (keqb "attributes"%string "ids.csv"%string) with false. cbn iota.
  rewrite dget_app. destruct (p_attrs po) as [|x l].
  - cbn [map subdir dget]. destruct (map _ (p_rels po)); reflexivity.
  - reflexivity.
Qed.
Lemma pop_tree_relationships fmt w po : lookup (pop_tree fmt w po) ["relationships"%string] =
  match p_rels po with [] => None | _ => Some (Dir (map (item_file (rel_tab fmt w)) (p_rels po))) end.
Proof.
  unfold pop_tree. cbn [lookup]. cbn [dget]. change (keqb "relationships"%string "ids.csv"%string) with false. cbn iota.
  rewrite dget_app. replace (dget "relationships"%string (subdir "attributes" _)) with (@None (node doc))
    by (destruct (map _ (p_attrs po)); reflexivity).
  destruct (p_rels po) as [|x l]; reflexivity.
Qed.

(** What reading a population directory gives, for both kinds of item. *)
Lemma listed_items ls n dir tab l : (forall l, Permutation (ls l) l) ->
  lookup n dir = Some (Dir (map (item_file tab) l)) ->
  exists xs, listed_in ls n dir = Ok (map (fun x => csv_name (fst x)) xs) /\ Permutation l xs.
Proof.
  intros Hls L. unfold listed_in, listdir. rewrite L. cbn [bind]. rewrite dkeys_item_file.
  destruct (Permutation_map_inv _ _ (Hls (map (fun x => csv_name (fst x)) l))) as (xs & E & Hp).
  exists xs. rewrite E. split; [reflexivity|]. exact Hp.
Qed.

Lemma read_item n dir tab l x t : lookup n dir = Some (Dir (map (item_file tab) l)) -> NoDup (map fst l) -> In x l ->
  tab x = Some t -> read_csv n (dir ++ [csv_name (fst x)]) = Ok t.
Proof.
  intros L Hn Hx Et. unfold read_csv, read_file. rewrite lookup_app, L. cbn [lookup].
  rewrite dget_item_file by assumption. unfold item_file. rewrite Et. reflexivity.
Qed.

(** [w'] is [w] with objects added. *)
Record grown (w w' : world) : Prop := {
  grown_prng : w_prng w' = w_prng w;
  grown_seeder : w_seeder w' = w_seeder w;
  grown_clock : w_clock w' = w_clock w;
  grown_attrs : exists l, w_attrs w' = w_attrs w ++ l;
  grown_rels : exists l, w_rels w' = w_rels w ++ l;
  grown_gens : exists l, w_gens w' = w_gens w ++ l;
  grown_dgens : w_dgens w' = w_dgens w;
  grown_tgens : w_tgens w' = w_tgens w;
  grown_pops : exists l, w_pops w' = w_pops w ++ l;
  grown_stories : w_stories w' = w_stories w
}.

Lemma grown_refl w : grown w w.
Proof. split; try reflexivity; exists []; now rewrite app_nil_r. Qed.
Lemma grown_trans w1 w2 w3 : grown w1 w2 -> grown w2 w3 -> grown w1 w3.
Proof.
  intros [a1 a2 a3 [l4 a4] [l5 a5] [l6 a6] a7 a8 [l9 a9] a10] [b1 b2 b3 [m4 b4] [m5 b5] [m6 b6] b7 b8 [m9 b9] b10].
  split; try congruence.
  - exists (l4 ++ m4). now rewrite b4, a4, app_assoc.
  - exists (l5 ++ m5). now rewrite b5, a5, app_assoc.
  - exists (l6 ++ m6). now rewrite b6, a6, app_assoc.
  - exists (l9 ++ m9). now rewrite b9, a9, app_assoc.
Qed.

Lemma nth_error_lt {A} (l : list A) i x : nth_error l i = Some x -> i < length l.
Proof. intros H. apply nth_error_Some. now rewrite H. Qed.

Lemma Forall2_pick {A B} (R : A -> B -> Prop) l m : Forall2 R l m -> forall i a, nth_error l i = Some a ->
  exists b, nth_error m i = Some b /\ R a b.
Proof.
  induction 1 as [|x y l m Hr _ IH]; intros [|i] a E; cbn in *; try discriminate; [|now apply IH].
  injection E as <-. eauto.
Qed.

Definition series_of (w : world) (x : string * nat) : series :=
  match nth_error (w_attrs w) (snd x) with Some t => t | None => [] end.
Definition rel_of (g : prng) (w : world) (x : string * nat) : relationship :=
  match nth_error (w_rels w) (snd x) with Some r => r | None => new_relationship g 0 end.

(** ** One population *)
Lemma load_population_spec fmt ls n folder w po : sane fmt -> (forall l, Permutation (ls l) l) ->
  clean_population fmt w po -> lookup n folder = Some (pop_tree fmt w po) ->
  forall w0, exists w1 po',
    load_population_from fmt ls n folder w0 = (Ok (length (w_pops w0)), w1) /\
    grown w0 w1 /\ w_pops w1 = w_pops w0 ++ [po'] /\ w_gens w1 = w_gens w0 /\
    w_pop_names w1 = w_pop_names w0 /\ w_gen_names w1 = w_gen_names w0 /\
    same_population w po w1 po' /\
    (forall name k, dget name (p_attrs po') = Some k -> k < length (w_attrs w1)) /\
    (forall name k, dget name (p_rels po') = Some k -> k < length (w_rels w1)) /\
    (forall name r r', relationship_of w po name = Some r -> relationship_of w1 po' name = Some r' ->
                       r_state r' = random_state (w_prng w0) (r_seed r) /\ reachable r').
Proof.
  intros Hs Hls [Ha Hr Na Nr Hids Hca Hcr] L w0.
  assert (LA : lookup n (folder ++ ["attributes"%string]) = lookup (pop_tree fmt w po) ["attributes"%string]) by now rewrite lookup_app, L.
  assert (LR : lookup n (folder ++ ["relationships"%string]) = lookup (pop_tree fmt w po) ["relationships"%string]) by now rewrite lookup_app, L.
  rewrite pop_tree_attributes in LA. rewrite pop_tree_relationships in LR.
  (* attributes *)
  assert (HA : exists xs acc, Permutation (p_attrs po) xs /\
    (if path_exists n (folder ++ ["attributes"%string])
     then let* files := lift (listed_in ls n (folder ++ ["attributes"%string])) in
          load_attrs fmt n (folder ++ ["attributes"%string]) files []
     else ret []) w0 = (Ok acc, set_attrs (w_attrs w0 ++ map (series_of w) xs) w0) /\
    indexed (length (w_attrs w0)) xs [] acc).
  { unfold path_exists. rewrite LA. destruct (p_attrs po) as [|x0 l0] eqn:Epo.
    - exists [], []. split; [constructor|]. split; [|split; [intros [|i] y; easy|easy]]. unfold ret. cbn. rewrite app_nil_r. now destruct w0.
    - rewrite <- Epo in *. clear Epo x0 l0.
      destruct (listed_items ls n _ _ _ Hls LA) as (xs & E & Hp).
      assert (Hnx : NoDup (map fst xs)) by (eapply Permutation_NoDup; [apply Permutation_map; exact Hp|exact Na]).
      destruct (load_attrs_spec fmt n (folder ++ ["attributes"%string]) (series_of w) xs Hnx) with (acc := @nil (string * nat)) (w := w0) as (acc & E2 & Hi).
      + intros x Hx. assert (Hx' : In x (p_attrs po)) by (eapply Permutation_in; [apply Permutation_sym; exact Hp|exact Hx]).
        destruct x as [name a]. destruct (Ha name a Hx') as [t Et].
        unfold series_of. cbn [snd]. rewrite Et. split.
        * eapply read_item; [exact LA|exact Na|exact Hx'|]. unfold attr_tab. cbn [snd]. now rewrite Et.
        * apply attr_round_trip; [exact Hs|]. apply (Hca name). unfold attribute_of. now rewrite (In_dget name a _ Na Hx').
      + exists xs, acc. split; [exact Hp|]. split; [|exact Hi].
        unfold bindM, lift. rewrite E. exact E2. }
  destruct HA as (xs & acc & Hpx & EA & Hix).
  set (w0a := set_attrs (w_attrs w0 ++ map (series_of w) xs) w0) in *.
  assert (HR : exists ys acc rs, Permutation (p_rels po) ys /\
    (if path_exists n (folder ++ ["relationships"%string])
     then let* files := lift (listed_in ls n (folder ++ ["relationships"%string])) in
          load_rels fmt n (folder ++ ["relationships"%string]) files []
     else ret []) w0a = (Ok acc, set_rels (w_rels w0 ++ rs) w0a) /\
    indexed (length (w_rels w0)) ys [] acc /\
    Forall2 (fun x r' => same_relations (rel_of (w_prng w0) w x) r' /\
                         r_state r' = random_state (w_prng w0) (r_seed (rel_of (w_prng w0) w x)) /\ reachable r') ys rs).
  { unfold path_exists. rewrite LR. destruct (p_rels po) as [|x0 l0] eqn:Epo.
    - exists [], [], []. split; [constructor|]. split; [|split; [split; [intros [|i] y; easy|easy]|constructor]]. unfold ret. cbn. rewrite app_nil_r. reflexivity.
    - rewrite <- Epo in *. clear Epo x0 l0.
      destruct (listed_items ls n _ _ _ Hls LR) as (ys & E & Hp).
      assert (Hny : NoDup (map fst ys)) by (eapply Permutation_NoDup; [apply Permutation_map; exact Hp|exact Nr]).
      destruct (load_rels_spec fmt n (folder ++ ["relationships"%string]) (rel_of (w_prng w0) w)
                  (fun r r' => same_relations r r' /\ r_state r' = random_state (w_prng w0) (r_seed r) /\ reachable r') (w_prng w0) ys Hny)
        with (acc := @nil (string * nat)) (w := w0a) as (acc2 & rs & E2 & Hi & HF); [|reflexivity|].
      + intros x Hx. assert (Hx' : In x (p_rels po)) by (eapply Permutation_in; [apply Permutation_sym; exact Hp|exact Hx]).
        destruct x as [name a]. destruct (Hr name a Hx') as [t Et].
        unfold rel_of. cbn [snd]. rewrite Et. split.
        * eapply read_item; [exact LR|exact Nr|exact Hx'|]. unfold rel_tab. cbn [snd]. now rewrite Et.
        * destruct (Hcr name t) as [H1 H2]; [unfold relationship_of; now rewrite (In_dget name a _ Nr Hx')|].
          destruct (rel_round_trip (w_prng w0) fmt t Hs H1 H2) as (r' & ? & ? & ? & ?). eauto 6.
      + exists ys, acc2, rs. split; [exact Hp|]. split; [|auto].
        unfold bindM, lift. rewrite E. exact E2. }
  destruct HR as (ys & acc2 & rs & Hpy & ER & Hiy & HF).
  set (w0b := set_rels (w_rels w0 ++ rs) w0a) in *.
  assert (Hnx : NoDup (map fst xs)) by (eapply Permutation_NoDup; [apply Permutation_map; exact Hpx|exact Na]).
  assert (Hny : NoDup (map fst ys)) by (eapply Permutation_NoDup; [apply Permutation_map; exact Hpy|exact Nr]).
  set (ids := load_ids fmt (ids_table fmt (p_ids po))).
  exists (set_pops (w_pops w0 ++ [mkPop ids (Z.of_nat (length ids)) acc acc2]) w0b), (mkPop ids (Z.of_nat (length ids)) acc acc2).
  assert (Eids : ids = p_ids po) by (apply ids_round_trip; assumption).
  split; [|split; [|split; [|split; [|split; [|split; [|split; [|split; [|split]]]]]]]].
  - unfold load_population_from. unfold bindM at 1. unfold lift at 1.
    assert (E0 : read_csv n (folder ++ ["ids.csv"%string]) = Ok (ids_table fmt (p_ids po))).
    { unfold read_csv, read_file. rewrite lookup_app, L. reflexivity. }
    rewrite E0. unfold bindM at 1. rewrite EA. unfold bindM at 1. rewrite ER. reflexivity.
  - split; try reflexivity; cbn; try (eexists; reflexivity); exists []; now rewrite app_nil_r.
  - reflexivity.
  - reflexivity.
  - reflexivity.
  - reflexivity.
  - split.
    + exact Eids.
    + cbn. now rewrite Eids.
    + intros name. unfold attribute_of. cbn [p_attrs].
      rewrite (dget_perm name _ _ Hpx Na). pose proof (indexed_dget _ _ _ name Hix Hnx) as H.
      destruct (dget name acc) as [k|].
      * destruct H as (i & a & -> & Ei & Ed). rewrite Ed. change (w_attrs (set_pops _ _)) with (w_attrs w0 ++ map (series_of w) xs).
        rewrite nth_error_app2 by lia. replace (length (w_attrs w0) + i - length (w_attrs w0)) with i by lia.
        rewrite nth_error_map, Ei. cbn. unfold series_of. cbn [snd].
        destruct (Ha name a) as [t Et]; [|now rewrite Et].
        apply nth_error_In in Ei. eapply Permutation_in; [apply Permutation_sym; exact Hpx|exact Ei].
      * now rewrite H.
    + intros name. unfold relationship_of. cbn [p_rels].
      rewrite (dget_perm name _ _ Hpy Nr). pose proof (indexed_dget _ _ _ name Hiy Hny) as H.
      destruct (dget name acc2) as [k|].
      * destruct H as (i & a & -> & Ei & Ed). rewrite Ed. change (w_rels (set_pops _ _)) with (w_rels w0 ++ rs).
        rewrite nth_error_app2 by lia. replace (length (w_rels w0) + i - length (w_rels w0)) with i by lia.
        destruct (Hr name a) as [t Et]; [apply nth_error_In in Ei; eapply Permutation_in; [apply Permutation_sym; exact Hpy|exact Ei]|].
        rewrite Et. destruct (Forall2_pick _ _ _ HF i _ Ei) as (r' & Er & HP & _). rewrite Er. cbn.
        unfold rel_of in HP. cbn [snd] in HP. now rewrite Et in HP.
      * now rewrite H.
  - intros name k E. cbn [p_attrs] in E. pose proof (indexed_dget _ _ _ name Hix Hnx) as H. rewrite E in H.
    destruct H as (i & a & -> & Ei & _). change (w_attrs (set_pops _ _)) with (w_attrs w0 ++ map (series_of w) xs).
    rewrite app_length, map_length. apply nth_error_lt in Ei. lia.
  - intros name k E. cbn [p_rels] in E. pose proof (indexed_dget _ _ _ name Hiy Hny) as H. rewrite E in H.
    destruct H as (i & a & -> & Ei & _). change (w_rels (set_pops _ _)) with (w_rels w0 ++ rs).
    rewrite app_length, <- (Forall2_length _ _ _ HF). apply nth_error_lt in Ei. lia.
  - intros name r r'. unfold relationship_of. cbn [p_rels].
    rewrite (dget_perm name _ _ Hpy Nr). pose proof (indexed_dget _ _ _ name Hiy Hny) as H.
    destruct (dget name acc2) as [k|]; [|easy].
    destruct H as (i & a & -> & Ei & Ed). rewrite Ed. change (w_rels (set_pops _ _)) with (w_rels w0 ++ rs).
    rewrite nth_error_app2 by lia. replace (length (w_rels w0) + i - length (w_rels w0)) with i by lia.
    intros Et Er. destruct (Forall2_pick _ _ _ HF i _ Ei) as (r2 & Er2 & _ & HP). rewrite Er in Er2. injection Er2 as <-.
    unfold rel_of in HP. cbn [snd] in HP. now rewrite Et in HP.
Qed.
