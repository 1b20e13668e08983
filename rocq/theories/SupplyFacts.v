(** Facts about stocks, generators of identifiers and the columns carrying items. *)
From Verif Require Import Base BaseFacts Rng Utils Relationship RelationshipFacts SpecRelationship RelationshipProps Frame Gens GensProps Clock Attribute AttributeFacts
  World Story Ops OpsFacts Helpers HelpersFacts Fs Circus SpecStory StoryFacts StoryExec SpecOps OpsProps OpsColumns OpsMore SpecLocal LocalFacts LocalOps LocalCalls
  RandomGens SpecSupply.
From Coq Require Import Permutation.

(** ** Columns *)
Definition restricts (d d' : df) (kept : list (val * list val)) : Prop :=
  sublist kept (df_rows d) /\ rectangular d' /\
  forall c, In c (df_cols d) -> In c (df_cols d') /\ column_of d' c = map (fun row => cell (df_cols d) (snd row) c) kept.

Lemma sublist_rest {A} (a b : list A) : sublist a b -> exists r, Permutation b (a ++ r) /\ (a = b -> r = []).
Proof.
  induction 1 as [|x l m H (r & P & E)|x l m H (r & P & E)].
  - exists []. split; [constructor|reflexivity].
  - exists (x :: r). split; [now apply Permutation_cons_app|]. intros ->. exfalso.
    assert (L : length (x :: m) <= length m); [|cbn in L; lia].
    clear - H. induction H; cbn in *; lia.
  - exists r. split; [now constructor|]. intros [= Em]. auto.
Qed.

Lemma restricts_refl d : rectangular d -> restricts d d (df_rows d).
Proof. intros R. split; [apply sublist_refl|]. split; [exact R|]. intros c Hc. split; [exact Hc|reflexivity]. Qed.

Lemma extended_restricts complete d d' new : rectangular d -> extended complete d d' new -> NoDup new ->
  (forall c, In c new -> ~ In c (df_cols d)) ->
  exists kept, restricts d d' kept /\ (complete = true -> kept = df_rows d).
Proof.
  intros [N L] (Hc & kept & Hs & Hk & F) Nn Hf. exists kept. split; [|exact Hk]. split; [exact Hs|].
  assert (Lk : forall row, In row kept -> length (snd row) = length (df_cols d)) by (intros row Hr; apply L; eapply sublist_In; eauto).
  clear Hs Hk L. unfold rectangular, column_of. rewrite Hc. split.
  - split.
    + apply NoDup_app_parts; [exact N|exact Nn|]. intros x Hx Hx'. exact (Hf x Hx' Hx).
    + intros row' Hr. destruct (Forall2_In_r _ _ _ _ F Hr) as (row & Hin & _ & extra & -> & E).
      rewrite !app_length, E, (Lk row Hin). reflexivity.
  - intros c Hin. split; [apply in_or_app; now left|].
    induction F as [|row row' kept rows' (E1 & extra & E2 & E3) F IH]; cbn [map]; [reflexivity|].
    rewrite IH by (intros; apply Lk; now right). f_equal. rewrite E2. apply cell_app_l; [exact Hin|]. apply Lk. now left.
Qed.

Lemma adds_cells_extended d d' name kept vs : adds_cells d d' name kept vs -> extended false d d' [name].
Proof.
  intros (Hc & Hs & Hl & Hr). split; [exact Hc|]. exists kept. split; [exact Hs|]. split; [discriminate|]. rewrite Hr. clear Hs Hr.
  revert vs Hl. induction kept as [|row kept IH]; intros [|v vs] Hl; cbn in *; try discriminate; [constructor|].
  constructor; [cbn; split; [reflexivity|]; now exists [v]|]. apply IH. now injection Hl.
Qed.
Lemma adds_cells_column d d' name kept vs : adds_cells d d' name kept vs -> rectangular d -> ~ In name (df_cols d) -> column_of d' name = vs.
Proof.
  intros (Hc & Hs & Hl & Hr) [_ L] Hn. unfold column_of. rewrite Hc, Hr, map_map. cbn [fst snd].
  assert (Lk : forall row, In row kept -> length (snd row) = length (df_cols d)) by (intros row H; apply L; eapply sublist_In; eauto).
  clear Hs Hr. revert vs Hl. induction kept as [|row kept IH]; intros [|v vs] Hl; cbn [combine map] in *; try discriminate; [reflexivity|].
  rewrite IH; [|intros; apply Lk; now right|now injection Hl]. f_equal. cbn [fst snd]. rewrite cell_app_r; [|exact Hn|apply Lk; now left].
  cbn. now rewrite String.eqb_refl.
Qed.
Lemma adds_column_cells d d' name vs : adds_column d d' name vs -> adds_cells d d' name (df_rows d) vs.
Proof. intros (A & B & C). split; [exact A|]. split; [apply sublist_refl|]. split; [exact B|exact C]. Qed.

Lemma one_restricts d d' name vs kept : adds_cells d d' name kept vs -> rectangular d -> ~ In name (df_cols d) ->
  (exists kept, restricts d d' kept) /\ column_of d' name = vs /\ In name (df_cols d').
Proof.
  intros A R N. split; [|split].
  - apply adds_cells_extended in A. destruct (extended_restricts _ _ _ _ R A) as (k & K & _); [repeat constructor; intros []| |eauto].
    intros c [<-|[]]. exact N.
  - eapply adds_cells_column; eauto.
  - destruct A as (-> & _). apply in_or_app. right. now left.
Qed.

Lemma rename_all cols named : length cols = length named -> rename_first cols named = named.
Proof. revert named. induction cols as [|c cols IH]; intros [|n named] H; cbn in *; try discriminate; [reflexivity|]. f_equal. apply IH. now injection H. Qed.

Lemma other_restricts o new d w d' l w' : adds o new -> run_op o d w = (Ok (d', l), w') -> rectangular d -> NoDup new ->
  (forall c, In c new -> ~ In c (df_cols d)) ->
  df_cols d' = df_cols d ++ new /\ exists kept, restricts d d' kept /\ (drops_rows o = false -> kept = df_rows d).
Proof.
  intros A H R Nn Hf.
  assert (Same : d' = d -> new = [] -> df_cols d' = df_cols d ++ new /\ exists kept, restricts d d' kept /\ (drops_rows o = false -> kept = df_rows d)).
  { intros -> ->. rewrite app_nil_r. split; [reflexivity|]. exists (df_rows d). split; [now apply restricts_refl|reflexivity]. }
  assert (Ext : extended (keeps_every_row o) d d' new -> (drops_rows o = false -> keeps_every_row o = true) ->
                df_cols d' = df_cols d ++ new /\ exists kept, restricts d d' kept /\ (drops_rows o = false -> kept = df_rows d)).
  { intros E K. split; [apply E|]. destruct (extended_restricts _ _ _ _ R E Nn Hf) as (kept & K1 & K2). exists kept. auto. }
  destruct (only_side_effect o) eqn:Se.
  - assert (new = []) by (destruct o; cbn in Se; try discriminate; cbn [adds] in A; try rewrite Se in A; exact A). subst new.
    apply (side_effect_data _ _ _ _ _ _ Se) in H as [-> _]. now apply Same.
  - destruct o; cbn [adds only_side_effect] in A, Se; try discriminate; try contradiction;
      try solve [apply Ext; [eapply target_extended; [exact A|exact H|exact Hf]|reflexivity || discriminate]].
    + apply logger_data in H as [-> _]. now apply Same.
    + subst new. destruct (drop_row_exact _ _ _ _ _ _ H) as (_ & _ & Hc & Hr). rewrite app_nil_r. split; [exact Hc|].
      exists (df_rows d'). split; [|discriminate]. split; [rewrite Hr; apply sublist_filter|]. split.
      * destruct R as [N L]. split; [now rewrite Hc|]. rewrite Hc. intros row Hin. rewrite Hr in Hin. apply filter_In in Hin. now apply L.
      * intros c Hin. rewrite Hc. split; [exact Hin|]. unfold column_of. now rewrite Hc.
    + destruct A as [-> A]. destruct (apply_extended _ _ _ _ _ _ _ _ H) as (sel & out & Es & Eo & E).
      assert (Ec : df_cols sel = source_fields) by (unfold select_cols in Es; apply bind_ok in Es as (? & _ & Es); injection Es as <-; reflexivity).
      destruct (A _ _ Ec Eo) as [Ro Lo]. rewrite rename_all in E by exact Lo. apply Ext; auto.
Qed.

(** ** Cargo *)
Definition cargo_ok (t : cargo) (d : df) : Prop :=
  match t with
  | Nothing => True
  | One c | Many c | Perhaps c None => In c (df_cols d)
  | Perhaps c (Some b) => In c (df_cols d) /\ In b (df_cols d) /\ column_of d b = map (fun v => VBool (is_na v)) (column_of d c)
  end.

Lemma perm_filter {A} (p : A -> bool) l m : Permutation l m -> Permutation (filter p l) (filter p m).
Proof.
  induction 1; cbn.
  - constructor.
  - destruct (p x); auto.
  - destruct (p x), (p y); try apply Permutation_refl. apply perm_swap.
  - etransitivity; eauto.
Qed.

Lemma map_ext_inv {A B} (f h : A -> B) l : map f l = map h l -> forall x, In x l -> f x = h x.
Proof. induction l as [|y l IH]; cbn; intros E x; [intros []|]. injection E as E1 E2. intros [<-|H]; auto. Qed.

Lemma aboard_restricts t d d' kept : cargo_ok t d -> restricts d d' kept ->
  cargo_ok t d' /\ exists lost, Permutation (aboard t d) (aboard t d' ++ lost) /\ (kept = df_rows d -> lost = []).
Proof.
  intros Ok (Hs & _ & Hc). destruct (sublist_rest _ _ Hs) as (rest & P & Er).
  destruct t as [|c|c|c m]; cbn [cargo_ok aboard] in *.
  - split; [exact I|]. exists []. split; [constructor|reflexivity].
  - destruct (Hc c Ok) as [Hin E]. split; [exact Hin|]. exists (map (fun row => cell (df_cols d) (snd row) c) rest). split.
    + rewrite E, <- map_app. unfold column_of. now apply Permutation_map.
    + intros K. now rewrite (Er K).
  - destruct (Hc c Ok) as [Hin E]. split; [exact Hin|]. exists (flat_map list_of (map (fun row => cell (df_cols d) (snd row) c) rest)). split.
    + rewrite E, <- flat_map_app, <- map_app. unfold column_of. now apply Permutation_flat_map, Permutation_map.
    + intros K. now rewrite (Er K).
  - assert (Hin0 : In c (df_cols d)) by (destruct m; [apply Ok|exact Ok]). destruct (Hc c Hin0) as [Hin E]. split.
    + destruct m as [b|]; [|exact Hin]. destruct Ok as (_ & Hb & Eb). destruct (Hc b Hb) as [Hb' E']. split; [exact Hin|]. split; [exact Hb'|].
      rewrite E, E', map_map. unfold column_of in Eb. rewrite map_map in Eb. apply map_ext_in. intros row Hr.
      apply (map_ext_inv _ _ _ Eb). eapply sublist_In; eauto.
    + exists (filter (fun v => negb (is_na v)) (map (fun row => cell (df_cols d) (snd row) c) rest)). split.
      * rewrite E, <- filter_app, <- map_app. unfold column_of. now apply perm_filter, Permutation_map.
      * intros K. now rewrite (Er K).
Qed.

(** ** Stocks *)
Definition stock_items (w : world) (r : nat) : list val :=
  match nth_error (w_rels w) r with Some rel => items_of rel | None => [] end.
Lemma held_ext S w w' : (forall r, In r S -> nth_error (w_rels w') r = nth_error (w_rels w) r) -> held S w' = held S w.
Proof. intros H. unfold held. induction S as [|r S IH]; cbn; [reflexivity|]. rewrite H by now left. f_equal. apply IH. intros; apply H. now right. Qed.

Lemma held_put S w r rel : NoDup S -> In r S -> nth_error (w_rels w) r = Some rel ->
  exists others, Permutation (held S w) (items_of rel ++ others) /\
    forall w' rel', w_rels w' = set_nth r rel' (w_rels w) -> Permutation (held S w') (items_of rel' ++ others).
Proof.
  intros N Hin Hr. apply in_split in Hin as (S1 & S2 & ->). exists (held S1 w ++ held S2 w).
  assert (N1 : ~ In r S1 /\ ~ In r S2).
  { apply NoDup_remove in N as [_ N]. split; intros H; apply N, in_or_app; auto. }
  assert (G : forall w' x, nth_error (w_rels w') r = Some x -> held S1 w' = held S1 w -> held S2 w' = held S2 w ->
              Permutation (held (S1 ++ r :: S2) w') (items_of x ++ held S1 w ++ held S2 w)).
  { intros w' x Hx E1 E2. unfold held in *. rewrite flat_map_app. cbn [flat_map]. rewrite Hx, E1, E2.
    rewrite !app_assoc. apply Permutation_app_tail, Permutation_app_comm. }
  split; [now apply G|]. intros w' rel' E. apply G.
  - rewrite E. eapply nth_put_same; eauto.
  - apply held_ext. intros x Hx. rewrite E. apply nth_put_other. intros ->. tauto.
  - apply held_ext. intros x Hx. rewrite E. apply nth_put_other. intros ->. tauto.
Qed.

Lemma held_no_na S w r rel : ~ In VNA (held S w) -> In r S -> nth_error (w_rels w) r = Some rel -> no_na_tos rel.
Proof.
  intros H Hin Hr f t q Ht ->. apply H. unfold held. apply in_flat_map. exists r. split; [exact Hin|]. rewrite Hr.
  unfold items_of. apply in_map_iff. now exists (f, VNA, q).
Qed.

(** ** Draws *)
Lemma drawn_same w w' g G : nth_error (w_gens w) g = Some G -> nth_error (w_gens w') g = Some G -> drawn w w' g [] [].
Proof. intros H H'. exists G, G, []. cbn. auto. Qed.
Lemma drawn_trans w1 w2 w3 g s1 i1 s2 i2 : drawn w1 w2 g s1 i1 -> drawn w2 w3 g s2 i2 -> drawn w1 w3 g (s1 ++ s2) (i1 ++ i2).
Proof.
  intros (G & G1 & v1 & A1 & A2 & A3 & A4) (G2 & G3 & v2 & B1 & B2 & B3 & B4). rewrite A2 in B1. injection B1 as <-.
  exists G, G3, (v1 ++ v2). split; [exact A1|]. split; [exact B2|]. split; [|rewrite concat_app; congruence].
  apply heap_calls_app. exists v1, G1, v2. split; [exact A3|]. split; [exact B3|reflexivity].
Qed.
Lemma drawn_ext w w' v v' g s i : nth_error (w_gens v) g = nth_error (w_gens w) g -> nth_error (w_gens v') g = nth_error (w_gens w') g ->
  drawn w w' g s i -> drawn v v' g s i.
Proof. intros E E' (G & G1 & vs & H). exists G, G1, vs. now rewrite E, E'. Qed.

Lemma ids_step G n vs G' : makes_ids G -> gen_step G n = Ok (vs, G') -> makes_ids G' /\ ~ In VNA vs.
Proof.
  intros [(k & p & m & ->)|(cc & ps & width & fresh & calls & av & ->)]; cbn [gen_step]; intros H.
  - injection H as <- <-. split; [left; eauto|]. intros Hin. apply in_map_iff in Hin as (x & E & _). discriminate.
  - destruct (n <? 0)%Z; [discriminate|]. apply bind_ok in H as ([idx st] & _ & H). apply bind_ok in H as (es & _ & [= <- <-]).
    split; [right; do 6 eexists; reflexivity|]. intros Hin. apply in_map_iff in Hin as (x & E & _). discriminate.
Qed.
Lemma ids_calls sizes : forall G vss G', makes_ids G -> heap_calls gen_step G sizes = Ok (vss, G') -> makes_ids G' /\ ~ In VNA (concat vss).
Proof.
  induction sizes as [|n sizes IH]; intros G vss G' I H; cbn [heap_calls] in H.
  - injection H as <- <-. split; [exact I|intros []].
  - apply bind_ok in H as ([vs G1] & E1 & H). apply bind_ok in H as ([vs2 G2] & E2 & [= <- <-]).
    apply ids_step in E1 as [I1 N1]; [|exact I]. apply IH in E2 as [I2 N2]; [|exact I1]. split; [exact I2|].
    cbn. intros K. apply in_app_or in K. tauto.
Qed.
Lemma drawn_no_na w w' g sizes items : (exists G, nth_error (w_gens w) g = Some G /\ makes_ids G) -> drawn w w' g sizes items ->
  ~ In VNA items /\ exists G, nth_error (w_gens w') g = Some G /\ makes_ids G.
Proof.
  intros (G0 & E0 & I) (G & G' & vss & E1 & E2 & H & <-). rewrite E0 in E1. injection E1 as <-.
  apply ids_calls in H as [I' N]; [|exact I]. eauto.
Qed.

Lemma ids_not_linked (h : list gen) g G n fuel : nth_error h g = Some G -> makes_ids G ->
  heap_generate (Datatypes.S fuel) h g n = (let! (vs, G') := gen_step G n in Ok (vs, set_nth g G' h)).
Proof. intros E I. cbn [heap_generate]. rewrite E. destruct I as [(k & p & m & ->)|(cc & ps & wd & fr & cl & av & ->)]; reflexivity. Qed.

Lemma plain_generate h g n fuel vs h' G : nth_error h g = Some G -> makes_ids G -> heap_generate (Datatypes.S fuel) h g n = Ok (vs, h') ->
  exists G', gen_step G n = Ok (vs, G') /\ h' = set_nth g G' h /\ nth_error h' g = Some G'.
Proof.
  intros E I. rewrite (ids_not_linked _ _ _ _ _ E I). intros H. apply bind_ok in H as ([v G'] & H & [= <- <-]).
  exists G'. split; [exact H|]. split; [reflexivity|]. eapply nth_put_same; eauto.
Qed.
Lemma plain_calls g fuel sizes : forall h vss h' G, nth_error h g = Some G -> makes_ids G ->
  heap_calls (fun h n => heap_generate (Datatypes.S fuel) h g n) h sizes = Ok (vss, h') ->
  exists G', heap_calls gen_step G sizes = Ok (vss, G') /\ nth_error h' g = Some G'.
Proof.
  induction sizes as [|n sizes IH]; intros h vss h' G E I H; cbn [heap_calls] in *.
  - injection H as <- <-. eauto.
  - apply bind_ok in H as ([vs h1] & E1 & H). apply bind_ok in H as ([vs2 h2] & E2 & [= <- <-]).
    destruct (plain_generate _ _ _ _ _ _ _ E I E1) as (G1 & H1 & _ & H2). rewrite H1. cbn [bind].
    destruct (ids_step _ _ _ _ I H1) as [I1 _]. destruct (IH _ _ _ _ H2 I1 E2) as (G2 & -> & H3). cbn [bind]. eauto.
Qed.
