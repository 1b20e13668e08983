(** A relationship read back from its file. *)
From Verif Require Import Base BaseFacts Rng Utils UtilsFacts Relationship RelationshipFacts SpecRelationship RelationshipProps
  Frame Gens Clock Attribute World Circus Fs Persist SpecPersist PersistFacts.

Lemma this_Q2Qc_Z z : this (Q2Qc (inject_Z z)) = inject_Z z.
Proof.
  change (this (Q2Qc (inject_Z z))) with (Qred (inject_Z z)). apply Qred_identity. apply Z.gcd_1_r.
Qed.

Lemma trunc_Z z : trunc_Q (inject_Z z) = z.
Proof. unfold trunc_Q, inject_Z. cbn. apply Z.quot_1_r. Qed.

Lemma vz_inj a b : vz a = vz b -> a = b.
Proof.
  intros E. apply (f_equal (fun v => match v with VNum q => trunc_Q (this q) | _ => 0%Z end)) in E.
  unfold vz in E. rewrite !this_Q2Qc_Z, !trunc_Z in E. exact E.
Qed.

Lemma vnat_inj a b : vnat a = vnat b -> a = b.
Proof. intros E. apply vz_inj in E. lia. Qed.

Lemma vz_leb a b : (a <= b)%Z -> val_leb (vz a) (vz b) = true.
Proof.
  intros H. unfold val_leb, vz. cbn [val_cmp]. unfold Qccompare. rewrite !this_Q2Qc_Z.
  destruct (inject_Z a ?= inject_Z b)%Q eqn:E; try easy.
  apply Qgt_alt in E. unfold Qlt in E. cbn in E. lia.
Qed.

Lemma isort_seq k n : isort val_leb (map vnat (seq k n)) = map vnat (seq k n).
Proof.
  revert k; induction n as [|n IH]; intros k; [easy|]. cbn [seq map isort]. rewrite IH.
  destruct n; [easy|]. cbn [seq map insert]. unfold vnat at 1 2. now rewrite vz_leb by lia.
Qed.

Lemma uniq_absent (x : val) l : ~ In x l -> filter (fun y => negb (keqb x y)) (uniq l) = uniq l.
Proof.
  intros H. apply filter_all_true. intros y Hy. apply (proj1 (uniq_In y l)) in Hy.
  destruct (keqb_spec x y) as [<-|]; easy.
Qed.

Section Lines.
  Context (fmt : text_format) (rd : string -> val).

  (** the lines of the relations *)
  Fixpoint lines_of (k : nat) (l : list (val * val * Q)) : list saved_line :=
    match l with
    | [] => []
    | (f, t, w) :: l' =>
        mkLine "relations" (vnat k) "from" (rd (show fmt f)) :: mkLine "relations" (vnat k) "to" (rd (show fmt t)) ::
        mkLine "relations" (vnat k) "weight" (rd (show fmt (vq w))) :: lines_of (S k) l'
    end.

  Lemma lines_rows k l x : In x (lines_of k l) -> exists j, k <= j /\ l_row x = vnat j.
  Proof.
    revert k; induction l as [|[[f t] w] l IH]; intros k; [easy|].
    cbn [lines_of In]. intros [<-|[<-|[<-|H]]]; [exists k; easy..|].
    destruct (IH _ H) as (j & ? & ?). exists j. split; [lia|easy].
  Qed.

  Lemma lines_labels k l : uniq (map l_row (lines_of k l)) = map vnat (seq k (length l)).
  Proof.
    revert k; induction l as [|[[f t] w] l IH]; intros k; [easy|].
    cbn [lines_of map l_row uniq length seq]. rewrite !IH.
    assert (Ha : filter (fun y => negb (keqb (vnat k) y)) (map vnat (seq (S k) (length l))) =
                 map vnat (seq (S k) (length l))).
    { apply filter_all_true. intros y Hy. apply in_map_iff in Hy as (j & <- & Hj).
      apply in_seq in Hj. destruct (keqb_spec (vnat k) (vnat j)) as [E|]; [|easy]. apply vnat_inj in E. lia. }
    repeat (rewrite ?Ha; cbn [filter]; rewrite ?keqb_refl; cbn [negb]). reflexivity.
  Qed.

  Definition sel_field (field : string) (x : val * val * Q) : val :=
    let '(f, t, w) := x in
    if keqb field "from"%string then rd (show fmt f) else if keqb field "to"%string then rd (show fmt t)
    else rd (show fmt (vq w)).

  Lemma cells_found field k l : In field ["from"; "to"; "weight"]%string ->
    map (fun j => cell_at (lines_of k l) (vnat j) field) (seq k (length l)) = map (sel_field field) l.
  Proof.
    intros Hf. revert k; induction l as [|[[f t] w] l IH]; intros k; [easy|].
    cbn [length seq map]. f_equal.
    - unfold cell_at. cbn [lines_of find l_row l_field]. rewrite keqb_refl. cbn [andb].
      destruct Hf as [<-|[<-|[<-|[]]]]; reflexivity.
    - rewrite <- (IH (S k)). apply map_ext_in. intros j Hj. apply in_seq in Hj. unfold cell_at. cbn [lines_of find l_row l_field].
      destruct (keqb_spec (vnat k) (vnat j)) as [E|]; [apply vnat_inj in E; lia|]. reflexivity.
  Qed.

  Lemma unstacked_lines field l : In field ["from"; "to"; "weight"]%string -> l <> [] ->
    unstacked (lines_of 0 l) field = Ok (map (sel_field field) l).
  Proof.
    intros Hf Hl. unfold unstacked. replace (existsb _ _) with true.
    - rewrite lines_labels, isort_seq, map_map. f_equal. now apply cells_found.
    - destruct l as [|[[f t] w] l]; [easy|]. cbn [lines_of existsb l_field].
      destruct Hf as [<-|[<-|[<-|[]]]]; reflexivity.
  Qed.

  Lemma lines_filter k l : filter (fun x => keqb (l_param x) "relations"%string) (lines_of k l) = lines_of k l.
  Proof.
    revert k; induction l as [|[[f t] w] l IH]; intros k; [easy|].
    cbn [lines_of filter l_param]. rewrite keqb_refl. now rewrite IH.
  Qed.
  Lemma lines_find k l x : l_param x = "seed"%string ->
    find (fun x => keqb (l_param x) "seed"%string) (lines_of k l ++ [x]) = Some x.
  Proof.
    intros Hx. revert k; induction l as [|[[f t] w] l IH]; intros k.
    - cbn. rewrite Hx. now rewrite keqb_refl.
    - cbn [lines_of app find l_param]. change (keqb "relations"%string "seed"%string) with false. cbn iota. apply IH.
  Qed.

  (** the texts of the value column *)
  Definition value_texts (l : list (val * val * Q)) : list string :=
    flat_map (fun '(f, t, w) => [show fmt f; show fmt t; show fmt (vq w)]) l.
End Lines.

Section Read.
  Context (fmt : text_format) (Hs : sane fmt).

  Lemma stack_lines_columns k l : (forall f t w, In (f, t, w) l -> f <> VNA /\ t <> VNA) ->
    forall rd row_rd, (forall i, row_rd (show fmt (vnat i)) = vnat i) ->
    map (fun '(p, (r, (f, v))) => mkLine p r f v)
      (combine (column 0 (stack_lines fmt k l))
         (combine (map row_rd (column 1 (stack_lines fmt k l)))
            (combine (column 2 (stack_lines fmt k l)) (map rd (column 3 (stack_lines fmt k l)))))) = lines_of fmt rd k l.
  Proof.
    intros Hna rd row_rd Hr. revert k Hna; induction l as [|[[f t] w] l IH]; intros k Hna; [easy|].
    destruct (Hna f t w) as [Hf Ht]; [now left|].
    assert (Ef : forall field v, v <> VNA -> stack_line fmt k field v = [["relations"%string; show fmt (vnat k); field; show fmt v]]).
    { intros field [| | | |]; easy. }
    cbn [stack_lines]. rewrite !Ef by easy. cbn [app].
    unfold column in *. cbn [map combine nth lines_of]. rewrite !Hr. f_equal. f_equal. f_equal.
    apply IH. intros f' t' w' H'. apply (Hna f' t' w'). now right.
  Qed.

  Lemma stack_lines_values k l : (forall f t w, In (f, t, w) l -> f <> VNA /\ t <> VNA) ->
    column 3 (stack_lines fmt k l) = value_texts fmt l.
  Proof.
    revert k; induction l as [|[[f t] w] l IH]; intros k Hna; [easy|].
    destruct (Hna f t w) as [Hf Ht]; [now left|].
    assert (Ef : forall field v, v <> VNA -> stack_line fmt k field v = [["relations"%string; show fmt (vnat k); field; show fmt v]]).
    { intros field [| | | |]; easy. }
    cbn [stack_lines]. rewrite !Ef by easy. unfold column in *. cbn [app map nth value_texts flat_map].
    f_equal. f_equal. f_equal. apply IH. intros f' t' w' H'. apply (Hna f' t' w'). now right.
  Qed.

  Lemma stack_lines_rows k l x : In x (column 1 (stack_lines fmt k l)) -> exists i, x = show fmt (vnat i).
  Proof.
    revert k; induction l as [|[[f t] w] l IH]; intros k; [easy|].
    assert (Ef : forall field v y, In y (column 1 (stack_line fmt k field v)) -> exists i, y = show fmt (vnat i)).
    { intros field v y H. destruct v; cbn in H; try easy; destruct H as [<-|[]]; now exists k. }
    cbn [stack_lines]. unfold column in *. rewrite !map_app, !in_app_iff. intros [H|[H|[H|H]]]; eauto.
  Qed.

  Definition num_rd (s : string) : val :=
    if is_na_text s then VNA else match read_num fmt s with Some q => VNum q | None => VNA end.
  Definition text_rd (s : string) : val := if is_na_text s then VNA else VStr s.

  Lemma num_rd_num q : survives fmt q -> num_rd (show_num fmt q) = VNum q.
  Proof. intros H. unfold num_rd. rewrite (show_num_na fmt Hs). now rewrite H. Qed.

  Lemma column_app j (a b : table) : column j (a ++ b) = column j a ++ column j b.
  Proof. apply map_app. Qed.

  Lemma row_column l seed :
    read_column fmt (column 1 (stack_lines fmt 0 l ++ [seed_line fmt seed])) =
    map num_rd (column 1 (stack_lines fmt 0 l)) ++ [vz 0].
  Proof.
    assert (Hz : forall i, survives fmt (Q2Qc (inject_Z i))) by apply Hs.
    rewrite column_app. unfold read_column. rewrite (proj2 (forallb_forall _ _)).
    - rewrite map_app. f_equal. change (column 1 [seed_line fmt seed]) with [show_num fmt (Q2Qc (inject_Z 0))].
      change (map num_rd [show_num fmt (Q2Qc (inject_Z 0))] = [vz 0]). cbn [map]. now rewrite num_rd_num.
    - intros x Hx. apply in_app_iff in Hx as [Hx|[<-|[]]].
      + apply stack_lines_rows in Hx as (i & ->). unfold vnat, vz. cbn [show]. rewrite Hz. apply orb_true_r.
      + cbn [seed_line nth]. unfold vz. cbn [show]. rewrite Hz. apply orb_true_r.
  Qed.

  (** In both cases the ids are read back, and the weights and the seed can be converted. *)
  Record good_reading (l : list (val * val * Q)) (seed : N) (rd : string -> val) : Prop := {
    gr_from : forall f t w, In (f, t, w) l -> rd (show fmt f) = f;
    gr_to : forall f t w, In (f, t, w) l -> rd (show fmt t) = t;
    gr_weight : forall f t w, In (f, t, w) l -> as_float fmt (rd (show fmt (vq w))) = Ok (this (Q2Qc w));
    gr_seed : as_float fmt (rd (show fmt (vz (Z.of_N seed)))) = Ok (inject_Z (Z.of_N seed))
  }.

  Lemma value_column l seed :
    l <> [] -> clean_ids fmt (flat_map (fun '(f, t, _) => [f; t]) l) ->
    ~ In VNA (flat_map (fun '(f, t, _) => [f; t]) l) ->
    (forall f t w, In (f, t, w) l -> survives fmt (Q2Qc w)) ->
    exists rd, read_column fmt (value_texts fmt l ++ [show fmt (vz (Z.of_N seed))]) =
                 map rd (value_texts fmt l) ++ [rd (show fmt (vz (Z.of_N seed)))] /\ good_reading l seed rd.
  Proof.
    intros Hl Hc Hna Hw.
    assert (Hz : forall i, survives fmt (Q2Qc (inject_Z i))) by apply Hs.
    assert (Hin : forall f t w, In (f, t, w) l -> In f (flat_map (fun '(f, t, _) => [f; t]) l) /\ In t (flat_map (fun '(f, t, _) => [f; t]) l)).
    { intros f t w H. split; apply in_flat_map; exists (f, t, w); cbn; auto. }
    destruct Hc as [Hn|[Ht (s & Hs1 & Hs2)]].
    - exists num_rd.
      assert (Hv : forall v, In v (flat_map (fun '(f, t, _) => [f; t]) l) -> exists q, v = VNum q /\ survives fmt q).
      { intros v H. destruct (Hn v H) as [->|]; [now exfalso|easy]. }
      split.
      + unfold read_column. rewrite (proj2 (forallb_forall _ _)); [now rewrite map_app|].
        intros x Hx. apply in_app_iff in Hx as [Hx|[<-|[]]].
        * apply in_flat_map in Hx as ([[f t] w] & H1 & H2). destruct (Hin _ _ _ H1) as [Hf Ht].
          destruct (Hv _ Hf) as (qf & -> & Sf), (Hv _ Ht) as (qt & -> & St). pose proof (Hw _ _ _ H1) as Sw.
          cbn [show vq] in H2. unfold vq in H2. cbn [show] in H2. unfold survives in *.
          destruct H2 as [<-|[<-|[<-|[]]]]; [rewrite Sf|rewrite St|rewrite Sw]; apply orb_true_r.
        * unfold vz. cbn [show]. rewrite Hz. apply orb_true_r.
      + split.
        * intros f t w H. destruct (Hin _ _ _ H) as [Hf _]. destruct (Hv _ Hf) as (q & -> & Sq). now apply num_rd_num.
        * intros f t w H. destruct (Hin _ _ _ H) as [_ Hf]. destruct (Hv _ Hf) as (q & -> & Sq). now apply num_rd_num.
        * intros f t w H. unfold vq. cbn [show]. now rewrite num_rd_num by eauto.
        * unfold vz. cbn [show]. rewrite num_rd_num by apply Hz. cbn [as_float]. now rewrite this_Q2Qc_Z.
    - exists text_rd.
      assert (Hv : forall v, In v (flat_map (fun '(f, t, _) => [f; t]) l) -> exists s, v = VStr s /\ ~ In s na_texts).
      { intros v H. destruct (Ht v H) as [->|]; [now exfalso|easy]. }
      assert (Hsn : ~ In s na_texts). { destruct (Hv _ Hs1) as (s' & E & ?). now injection E as <-. }
      split.
      + unfold read_column. rewrite (forallb_not _ _ s).
        2:{ apply in_app_iff. left. apply in_flat_map in Hs1 as ([[f t] w] & H1 & H2). apply in_flat_map. exists (f, t, w).
            split; [easy|]. cbn in H2 |- *. destruct H2 as [->|[->|[]]]; cbn; auto. }
        2:{ rewrite Hs2. now rewrite (is_na_text_false _ Hsn). }
        rewrite (forallb_not _ _ (show fmt (vz (Z.of_N seed)))).
        2:{ apply in_app_iff. right. now left. }
        2:{ unfold vz. cbn [show]. rewrite (show_num_na fmt Hs). cbn [orb].
            pose proof (Hz (Z.of_N seed)) as H. unfold survives in H.
            destruct (bool_text _) as [b|] eqn:Eb; [|easy]. now rewrite (booleans_no_number fmt Hs _ _ Eb) in H. }
        now rewrite map_app.
      + split.
        * intros f t w H. destruct (Hin _ _ _ H) as [Hf _]. destruct (Hv _ Hf) as (q & -> & Sq).
          cbn [show]. unfold text_rd. now rewrite (is_na_text_false _ Sq).
        * intros f t w H. destruct (Hin _ _ _ H) as [_ Hf]. destruct (Hv _ Hf) as (q & -> & Sq).
          cbn [show]. unfold text_rd. now rewrite (is_na_text_false _ Sq).
        * intros f t w H. unfold vq. cbn [show]. unfold text_rd. rewrite (show_num_na fmt Hs). cbn [as_float].
          pose proof (Hw _ _ _ H) as Sw. unfold survives in Sw. now rewrite Sw.
        * unfold vz. cbn [show]. unfold text_rd. rewrite (show_num_na fmt Hs). cbn [as_float].
          pose proof (Hz (Z.of_N seed)) as Sw. unfold survives in Sw. rewrite Sw. now rewrite this_Q2Qc_Z.
  Qed.
End Read.

Lemma Q2Qc_this q : Q2Qc (this (Q2Qc q)) = Q2Qc q.
Proof. apply Qc_is_canon. cbn. rewrite !Qred_correct. reflexivity. Qed.

Lemma lines3_map {A} (a b : A -> val) (c : A -> Q) l :
  lines3 (map a l) (map b l) (map c l) = map (fun x => (a x, b x, c x)) l.
Proof. induction l; cbn; [easy|]. now rewrite IHl. Qed.

Lemma combine_app4 {A B} (a a' : list A) (b b' : list B) : length a = length b ->
  combine (a ++ a') (b ++ b') = combine a b ++ combine a' b'.
Proof.
  revert b; induction a as [|x a IH]; intros [|y b]; cbn; try easy. intros H. injection H as H. now rewrite IH.
Qed.

Lemma column_length j (t : table) : length (column j t) = length t.
Proof. apply map_length. Qed.

Lemma clean_rel_homogeneous fmt r : clean_rel fmt r -> homogeneous r.
Proof.
  intros (_ & Hc & Hna & _). unfold homogeneous.
  assert (Hin : forall f t w, In (f, t, w) (stored r) -> In f (rel_ids r) /\ In t (rel_ids r)).
  { intros f t w H. split; apply in_flat_map; exists (f, t, w); cbn; auto. }
  destruct Hc as [H|[H _]]; [right|left]; intros f t w Hx; destruct (Hin _ _ _ Hx) as [Hf Ht].
  - destruct (H f Hf) as [->|(q & -> & _)]; [easy|]. destruct (H t Ht) as [->|(q' & -> & _)]; easy.
  - destruct (H f Hf) as [->|(q & -> & _)]; [easy|]. destruct (H t Ht) as [->|(q' & -> & _)]; easy.
Qed.

Lemma clean_ids_same fmt a b : (forall v, In v a <-> In v b) -> clean_ids fmt a -> clean_ids fmt b.
Proof.
  intros E [H|[H (s & H1 & H2)]].
  - left. intros v Hv. apply H. now apply E.
  - right. split; [intros v Hv; apply H; now apply E|]. exists s. split; [now apply E|easy].
Qed.

Theorem rel_round_trip g fmt r : sane fmt -> reachable r -> clean_rel fmt r ->
  exists r', load_rel g fmt (rel_table fmt r) = Ok r' /\ same_relations r r' /\
    r_state r' = random_state g (r_seed r) /\ reachable r'.
Proof.
  intros Hs Hr Hc. pose proof (clean_rel_homogeneous fmt r Hc) as Hh.
  pose proof (get_relations_none' r Hr Hh) as Hp. destruct Hc as (Hne & Hc & Hna & Hw).
  unfold load_rel, rel_table. set (L := get_relations r None) in *. clearbody L.
  assert (Hin : forall x, In x L <-> In x (stored r)).
  { intros x. split; apply Permutation_in; [exact Hp|now apply Permutation_sym]. }
  assert (Hids : forall v, In v (flat_map (fun '(f, t, _) => [f; t]) L) <-> In v (rel_ids r)).
  { intros v. unfold rel_ids. rewrite !in_flat_map. split; intros (x & H1 & H2); exists x; (split; [now apply Hin|easy]). }
  assert (HL : L <> []). { intros ->. apply Permutation_nil in Hp. now apply Hne. }
  assert (HcL : clean_ids fmt (flat_map (fun '(f, t, _) => [f; t]) L)).
  { apply (clean_ids_same fmt (rel_ids r)); [|exact Hc]. intros v. symmetry. apply Hids. }
  assert (HnaL : ~ In VNA (flat_map (fun '(f, t, _) => [f; t]) L)). { now rewrite Hids. }
  assert (HwL : forall f t w, In (f, t, w) L -> survives fmt (Q2Qc w)). { intros f t w H. apply (Hw f t w). now apply Hin. }
  assert (Hn2 : forall f t w, In (f, t, w) L -> f <> VNA /\ t <> VNA).
  { intros f t w H. split; intros ->; apply HnaL, in_flat_map.
    - exists (VNA, t, w). cbn; auto.
    - exists (f, VNA, w). cbn; auto. }
  clear Hin Hids Hc Hna Hw Hne.
  destruct (value_column fmt Hs L (r_seed r) HL HcL HnaL HwL) as (rd & Hrd & Hg).
  assert (Hls : read_lines fmt (stack_lines fmt 0 L ++ [seed_line fmt (r_seed r)]) =
                lines_of fmt rd 0 L ++ [mkLine "seed" (vz 0) "0" (rd (show fmt (vz (Z.of_N (r_seed r)))))]).
  { unfold read_lines. rewrite (row_column fmt Hs), !column_app.
    change (column 3 [seed_line fmt (r_seed r)]) with [show fmt (vz (Z.of_N (r_seed r)))].
    rewrite (stack_lines_values fmt 0 L Hn2), Hrd. rewrite <- (stack_lines_values fmt 0 L Hn2).
    assert (Hl : forall j, length (column j (stack_lines fmt 0 L)) = length (stack_lines fmt 0 L)) by (intros; apply column_length).
    rewrite (combine_app4 (column 2 _)) by (rewrite map_length, !Hl; reflexivity).
    rewrite (combine_app4 (map (num_rd fmt) _)).
    2:{ rewrite map_length, combine_length, map_length, !Hl. lia. }
    rewrite (combine_app4 (column 0 _)).
    2:{ rewrite !combine_length, !map_length, !Hl. lia. }
    rewrite map_app. f_equal. apply (stack_lines_columns fmt 0 L Hn2).
    intros i. unfold vnat, vz. cbn [show]. apply (num_rd_num fmt Hs). apply Hs. }
  rewrite Hls. rewrite lines_find by reflexivity. cbn [l_value].
  rewrite (gr_seed _ _ _ _ Hg). cbn [bind]. rewrite trunc_Z, N2Z.id.
  rewrite filter_app, lines_filter. cbn [filter l_param].
  change (keqb "seed"%string "relations"%string) with false. cbn iota. rewrite app_nil_r.
  destruct (lines_of fmt rd 0 L) as [|x ls] eqn:El.
  { destruct L as [|[[f t] w] L]; easy. }
  rewrite <- El. clear Hls El.
  rewrite !unstacked_lines by (cbn; auto). cbn [bind].
  assert (Ef : map (sel_field fmt rd "from") L = map (fun x => fst (fst x)) L).
  { apply map_ext_in. intros [[f t] w] H. cbn. apply (gr_from _ _ _ _ Hg _ _ _ H). }
  assert (Et : map (sel_field fmt rd "to") L = map (fun x => snd (fst x)) L).
  { apply map_ext_in. intros [[f t] w] H. cbn. apply (gr_to _ _ _ _ Hg _ _ _ H). }
  assert (Ew : mapr (as_float fmt) (map (sel_field fmt rd "weight") L) = Ok (map (fun x => this (Q2Qc (snd x))) L)).
  { pose proof (gr_weight _ _ _ _ Hg) as Hwt. clear - Hwt. induction L as [|[[f t] w] L IH]; [easy|].
    cbn [map mapr]. change (sel_field fmt rd "weight" (f, t, w)) with (rd (show fmt (vq w))).
    rewrite (Hwt f t w) by now left. cbn [bind]. rewrite IH by (intros; apply (Hwt f0 t0 w0); now right). reflexivity. }
  rewrite Ef, Et, Ew. cbn [bind].
  destruct (add_relations_ok (new_relationship g (r_seed r)) (map (fun x => fst (fst x)) L) (map (fun x => snd (fst x)) L)
             (WArray (map (fun x => this (Q2Qc (snd x))) L))) as [r' Er].
  { now rewrite !map_length. } { cbn. now rewrite !map_length. }
  exists r'. split; [exact Er|].
  pose proof (reach_new g (r_seed r)) as R0.
  pose proof (add_exact _ _ _ _ _ R0 Er) as Hadd. cbn [weights_list] in Hadd. rewrite lines3_map in Hadd. cbn [stored grouped new_relationship flat_map app] in Hadd.
  destruct (add_relations_spec _ _ _ _ _ (proj1 (conj (reachable_wf _ R0) I)) Er) as (_ & Hseed & Hstate & _).
  split; [split; [exact Hseed|]|split; [exact Hstate|exact (reach_add _ _ _ _ _ R0 Er)]].
  unfold weighted. eapply Permutation_trans; [apply Permutation_map, Hadd|].
  rewrite map_map. eapply Permutation_trans; [|apply Permutation_map, Hp].
  apply Permutation_refl'. apply map_ext. intros [[f t] w]. cbn [fst snd]. now rewrite Q2Qc_this.
Qed.
