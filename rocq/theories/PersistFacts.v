(** Facts about the text form of columns, attributes and relationships. *)
From Verif Require Import Base BaseFacts Rng Utils UtilsFacts Relationship RelationshipFacts SpecRelationship RelationshipProps
  Frame Gens Clock Attribute World Circus Fs Persist SpecPersist.

Lemma is_na_text_In s : is_na_text s = true <-> In s na_texts.
Proof. apply mem_In. Qed.

Lemma is_na_text_false s : ~ In s na_texts -> is_na_text s = false.
Proof. intros H. destruct (is_na_text s) eqn:E; [|easy]. now apply is_na_text_In in E. Qed.

Lemma forallb_false {A} (f : A -> bool) l : forallb f l = false -> exists x, In x l /\ f x = false.
Proof.
  induction l as [|a l IH]; cbn; [easy|]. destruct (f a) eqn:E; cbn.
  - intros H. destruct (IH H) as (x & ? & ?). eauto.
  - eauto.
Qed.

Lemma forallb_not {A} (f : A -> bool) l x : In x l -> f x = false -> forallb f l = false.
Proof.
  intros Hx Hf. destruct (forallb f l) eqn:E; [|easy]. rewrite forallb_forall in E. now rewrite E in Hf.
Qed.

Lemma map_show_id {A B} (f : A -> B) (g : B -> A) l : (forall x, In x l -> g (f x) = x) -> map g (map f l) = l.
Proof.
  intros H. rewrite map_map. rewrite <- (map_id l) at 2. apply map_ext_in. exact H.
Qed.

Section Columns.
  Context (fmt : text_format) (Hs : sane fmt).

  Lemma show_na : is_na_text (show fmt VNA) = true.
  Proof. reflexivity. Qed.
  Lemma show_num_na q : is_na_text (show_num fmt q) = false.
  Proof. apply is_na_text_false, numbers_not_missing, Hs. Qed.

  (** numbers *)
  Lemma read_numbers vs : number_column fmt vs -> read_column fmt (map (show fmt) vs) = vs.
  Proof.
    intros H. unfold read_column.
    replace (forallb _ _) with true.
    - apply map_show_id. intros v Hv. destruct (H v Hv) as [->|(q & -> & Hq)]; [easy|].
      cbn [show]. now rewrite show_num_na, Hq.
    - symmetry. apply forallb_forall. intros s Hin. apply in_map_iff in Hin as (v & <- & Hv).
      destruct (H v Hv) as [->|(q & -> & Hq)]; [easy|]. cbn [show]. rewrite Hq. apply orb_true_r.
  Qed.

  Lemma read_true : read_num fmt "True" = None. Proof. now apply Hs with (b := true). Qed.
  Lemma read_false : read_num fmt "False" = None. Proof. now apply Hs with (b := false). Qed.

  Lemma read_bools vs : bool_column vs -> read_column fmt (map (show fmt) vs) = vs.
  Proof.
    intros H. unfold read_column. destruct (forallb (fun s => is_na_text s || is_some (read_num fmt s)) _) eqn:E.
    - apply map_show_id. intros v Hv. rewrite forallb_forall in E.
      specialize (E (show fmt v) (in_map _ _ _ Hv)). destruct (H v Hv) as [->|(b & ->)]; [easy|].
      exfalso. destruct b; cbn [show] in E; [rewrite read_true in E|rewrite read_false in E]; easy.
    - replace (forallb _ _) with true.
      + apply map_show_id. intros v Hv. destruct (H v Hv) as [->|([] & ->)]; easy.
      + symmetry. apply forallb_forall. intros s Hin. apply in_map_iff in Hin as (v & <- & Hv).
        destruct (H v Hv) as [->|([] & ->)]; easy.
  Qed.

  Lemma read_texts vs : text_column fmt vs -> not_boolean vs -> read_column fmt (map (show fmt) vs) = vs.
  Proof.
    intros [H (s & Hin & Hn)] (s' & Hin' & Hb). unfold read_column.
    rewrite (forallb_not _ _ s).
    2:{ change s with (show fmt (VStr s)). now apply in_map. }
    2:{ rewrite Hn. destruct (H _ Hin) as [|(x & Hx & Hna)]; [easy|]. injection Hx as <-.
        now rewrite (is_na_text_false _ Hna). }
    rewrite (forallb_not _ _ s').
    2:{ change s' with (show fmt (VStr s')). now apply in_map. }
    2:{ rewrite Hb. destruct (H _ Hin') as [|(x & Hx & Hna)]; [easy|]. injection Hx as <-.
        now rewrite (is_na_text_false _ Hna). }
    apply map_show_id. intros v Hv. destruct (H v Hv) as [->|(x & -> & Hna)]; [easy|].
    cbn [show]. now rewrite (is_na_text_false _ Hna).
  Qed.

  Lemma read_clean vs : clean_values fmt vs -> read_column fmt (map (show fmt) vs) = vs.
  Proof.
    intros [H|[H|[H H']]]; [now apply read_numbers|now apply read_bools|now apply read_texts].
  Qed.

  Lemma map_eq_In {A} (f : A -> A) l v : map f l = l -> In v l -> f v = v.
  Proof.
    induction l as [|a l IH]; cbn; [easy|]. intros E Hin. injection E as E1 E2. destruct Hin as [<-|Hin]; auto.
  Qed.

  Lemma clean_read vs : read_column fmt (map (show fmt) vs) = vs -> clean_values fmt vs.
  Proof.
    intros E. unfold read_column in E.
    destruct (forallb (fun s => is_na_text s || is_some (read_num fmt s)) (map (show fmt) vs)) eqn:E1.
    - left. rewrite map_map in E. intros v Hv. pose proof (map_eq_In _ _ _ E Hv) as Ev. cbn beta in Ev.
      destruct (is_na_text (show fmt v)); [now left|]. destruct (read_num fmt (show fmt v)) as [q|] eqn:Er; [|now left].
      right. exists q. split; [easy|]. unfold survives. rewrite <- Ev in Er. exact Er.
    - destruct (forallb (fun s => is_na_text s || is_some (bool_text s)) (map (show fmt) vs)) eqn:E2.
      + right. left. rewrite map_map in E. intros v Hv. pose proof (map_eq_In _ _ _ E Hv) as Ev. cbn beta in Ev.
        destruct (is_na_text (show fmt v)); [now left|]. destruct (bool_text (show fmt v)) as [b|]; [|now left]. eauto.
      + right. right. rewrite map_map in E.
        assert (Hv : forall v, In v vs -> is_na_text (show fmt v) = false -> v = VStr (show fmt v)).
        { intros v Hv Hn. pose proof (map_eq_In _ _ _ E Hv) as Ev. cbn beta in Ev. now rewrite Hn in Ev. }
        split; [split|].
        * intros v Hin. pose proof (map_eq_In _ _ _ E Hin) as Ev. cbn beta in Ev.
          destruct (is_na_text (show fmt v)) eqn:En; [now left|]. right. exists (show fmt v). split; [easy|].
          intros Hx. apply is_na_text_In in Hx. congruence.
        * apply forallb_false in E1 as (s & Hin & Hf). apply in_map_iff in Hin as (v & <- & Hin).
          apply orb_false_iff in Hf as [Hn Hr]. exists (show fmt v). split; [now rewrite <- Hv|].
          destruct (read_num fmt (show fmt v)); easy.
        * apply forallb_false in E2 as (s & Hin & Hf). apply in_map_iff in Hin as (v & <- & Hin).
          apply orb_false_iff in Hf as [Hn Hr]. exists (show fmt v). split; [now rewrite <- Hv|].
          destruct (bool_text (show fmt v)); easy.
  Qed.

  Lemma column_exact vs : read_column fmt (map (show fmt) vs) = vs <-> clean_values fmt vs.
  Proof. split; [apply clean_read|apply read_clean]. Qed.

  Lemma read_length cells : length (read_column fmt cells) = length cells.
  Proof. unfold read_column. destruct (forallb _ _); [|destruct (forallb _ _)]; apply map_length. Qed.

  (** ** attributes *)
  Lemma attr_columns t : column 0 (map (fun '(i, v) => [show fmt i; show fmt v]) t) = map (show fmt) (map fst t) /\
    column 1 (map (fun '(i, v) => [show fmt i; show fmt v]) t) = map (show fmt) (map snd t).
  Proof. unfold column. rewrite !map_map. split; apply map_ext; intros [i v]; reflexivity. Qed.

  Lemma combine_split_eq {A B} (t : list (A * B)) a b : length a = length t -> length b = length t ->
    combine a b = t -> a = map fst t /\ b = map snd t.
  Proof.
    intros Ha Hb <-. assert (length a = length b) as Hab by congruence. clear Ha Hb.
    rewrite map_fst_combine, map_snd_combine; auto; lia.
  Qed.

  Lemma combine_fst_snd {A B} (t : list (A * B)) : combine (map fst t) (map snd t) = t.
  Proof. induction t as [|[a b] t IH]; cbn; [easy|]. now rewrite IH. Qed.

  Lemma attr_round_trip t :
    load_attr fmt (attr_table fmt t) = Ok t <-> clean_values fmt (map fst t) /\ clean_values fmt (map snd t).
  Proof.
    unfold load_attr, attr_table. destruct (attr_columns t) as [-> ->]. rewrite <- !column_exact. split.
    - intros E. injection E as E. apply combine_split_eq in E as [E1 E2].
      + now split.
      + now rewrite read_length, !map_length.
      + now rewrite read_length, !map_length.
    - intros [-> ->]. now rewrite combine_fst_snd.
  Qed.

  (** ** ids.csv: the header "0" is one more cell *)
  Lemma zero_read : is_some (read_num fmt "0") = true.
  Proof. pose proof (zero_is_number fmt Hs). now destruct (read_num fmt "0"). Qed.

  Lemma ids_column ids : column 0 (ids_table fmt ids) = "0"%string :: map (show fmt) ids.
  Proof. unfold column, ids_table. cbn [map nth]. now rewrite map_map. Qed.

  Lemma ids_round_trip ids : load_ids fmt (ids_table fmt ids) = ids <-> clean_ids fmt ids.
  Proof.
    unfold load_ids. rewrite ids_column. split.
    - unfold read_column. cbn [forallb]. change (is_na_text "0") with false. cbn [orb]. rewrite zero_read. cbn [andb].
      destruct (forallb (fun s => is_na_text s || is_some (read_num fmt s)) (map (show fmt) ids)) eqn:E1.
      + cbn [map tl]. rewrite map_map. intros E. left. intros v Hv.
        pose proof (map_eq_In _ _ _ E Hv) as Ev. cbn beta in Ev.
        destruct (is_na_text (show fmt v)); [now left|]. destruct (read_num fmt (show fmt v)) as [q|] eqn:Er; [|now left].
        right. exists q. split; [easy|]. unfold survives. rewrite <- Ev in Er. exact Er.
      + change (bool_text "0") with (@None bool). cbn [is_some andb map tl]. rewrite map_map. intros E. right. split.
        * intros v Hin. pose proof (map_eq_In _ _ _ E Hin) as Ev. cbn beta in Ev.
          destruct (is_na_text (show fmt v)) eqn:En; [now left|]. right. exists (show fmt v). split; [easy|].
          intros Hx. apply is_na_text_In in Hx. congruence.
        * apply forallb_false in E1 as (s & Hin & Hf). apply in_map_iff in Hin as (v & <- & Hin).
          apply orb_false_iff in Hf as [Hn Hr]. exists (show fmt v). split.
          -- pose proof (map_eq_In _ _ _ E Hin) as Ev. cbn beta in Ev. rewrite Hn in Ev. now rewrite Ev.
          -- destruct (read_num fmt (show fmt v)); easy.
    - intros [H|[H (s & Hin & Hr)]].
      + unfold read_column. rewrite (proj2 (forallb_forall _ _)).
        * cbn [map tl]. apply map_show_id. intros v Hv. destruct (H v Hv) as [->|(q & -> & Hq)]; [easy|].
          cbn [show]. now rewrite show_num_na, Hq.
        * intros s [<-|Hin]; [now rewrite zero_read|]. apply in_map_iff in Hin as (v & <- & Hv).
          destruct (H v Hv) as [->|(q & -> & Hq)]; [easy|]. cbn [show]. rewrite Hq. apply orb_true_r.
      + unfold read_column. rewrite (forallb_not _ _ s).
        2:{ right. change s with (show fmt (VStr s)). now apply in_map. }
        2:{ rewrite Hr. destruct (H _ Hin) as [|(x & Hx & Hna)]; [easy|]. injection Hx as <-.
            now rewrite (is_na_text_false _ Hna). }
        cbn [forallb]. change (is_na_text "0") with false. change (bool_text "0") with (@None bool).
        cbn [is_some orb andb map tl]. apply map_show_id. intros v Hv.
        destruct (H v Hv) as [->|(x & -> & Hna)]; [easy|]. cbn [show]. now rewrite (is_na_text_false _ Hna).
  Qed.
End Columns.
