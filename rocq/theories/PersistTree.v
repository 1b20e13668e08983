(** What saving writes, as a tree. *)
From Verif Require Import Base BaseFacts Rng Utils Relationship Frame Gens Clock Attribute World Circus Fs SpecFs FsFacts Persist PersistFs.

Lemma dset_absent {V} (k : string) (v : V) d : dget k d = None -> dset k v d = d ++ [(k, v)].
Proof.
  induction d as [|[k' x] d IH]; cbn; [easy|]. destruct (keqb_spec k k') as [->|Hn]; [easy|]. intros H. now rewrite IH.
Qed.

Lemma dget_app {V} (k : string) (a b : dict string V) :
  dget k (a ++ b) = match dget k a with Some v => Some v | None => dget k b end.
Proof. induction a as [|[k' x] a IH]; cbn; [easy|]. destruct (keqb k k'); easy. Qed.

Lemma string_app_inj (a b c : string) : (a ++ c = b ++ c)%string -> a = b.
Proof.
  revert b; induction a as [|x a IH]; intros [|y b]; cbn; intros H.
  - easy.
  - exfalso. apply (f_equal String.length) in H. cbn in H.
    assert (forall u v, String.length (u ++ v) = String.length u + String.length v) as Hl.
    { induction u; cbn; intros; [easy|]. now rewrite IHu. }
    rewrite Hl in H. lia.
  - exfalso. apply (f_equal String.length) in H. cbn in H.
    assert (forall u v, String.length (u ++ v) = String.length u + String.length v) as Hl.
    { induction u; cbn; intros; [easy|]. now rewrite IHu. }
    rewrite Hl in H. lia.
  - injection H as -> H. f_equal. now apply IH.
Qed.

Lemma csv_name_inj a b : csv_name a = csv_name b -> a = b.
Proof. apply string_app_inj. Qed.
Lemma json_name_inj a b : json_name a = json_name b -> a = b.
Proof. apply string_app_inj. Qed.

Lemma drop4_csv s : drop4 (csv_name s) = s.
Proof.
  unfold drop4, csv_name.
  assert (Hl : forall u v, String.length (u ++ v) = String.length u + String.length v).
  { induction u; cbn; intros; [easy|]. now rewrite IHu. }
  rewrite Hl. change (String.length ".csv") with 4. rewrite Nat.add_sub.
  induction s as [|c s IH]; cbn; [easy|]. now rewrite IH.
Qed.

(** ** the files of a population *)
Definition attr_tab (fmt : text_format) (w : world) (x : string * nat) : option table :=
  option_map (attr_table fmt) (nth_error (w_attrs w) (snd x)).
Definition rel_tab (fmt : text_format) (w : world) (x : string * nat) : option table :=
  option_map (rel_table fmt) (nth_error (w_rels w) (snd x)).
Definition write_item (tab : string * nat -> option table) (dir : path) (x : string * nat) : F unit :=
  match tab x with
  | None => raiseF Unmodelled
  | Some t => sys (fun n => write_file n (dir ++ [csv_name (fst x)]) (Csv t))
  end.

Lemma write_attr_item fmt w dir x : write_attr fmt w dir x = write_item (attr_tab fmt w) dir x.
Proof. unfold write_attr, write_item, attr_tab. destruct (nth_error (w_attrs w) (snd x)); easy. Qed.
Lemma write_rel_item fmt w dir x : write_rel fmt w dir x = write_item (rel_tab fmt w) dir x.
Proof. unfold write_rel, write_item, rel_tab. destruct (nth_error (w_rels w) (snd x)); easy. Qed.

Lemma foreachF_ext {A} (f f' : A -> F unit) l n : (forall x, f x = f' x) -> foreachF f l n = foreachF f' l n.
Proof.
  intros H. revert n; induction l as [|x l IH]; intros n; cbn; [easy|]. unfold bindF. rewrite H.
  destruct (f' x n) as [[[]|e] n']; easy.
Qed.

Definition item_file (tab : string * nat -> option table) (x : string * nat) : string * node doc :=
  (csv_name (fst x), File (Csv (match tab x with Some t => t | None => [] end))).

Lemma write_item_local tab dir x : local dir (write_item tab dir x) (write_item tab [] x).
Proof.
  unfold write_item. destruct (tab x) as [t|]; [|apply local_raise].
  apply (local_sys dir [csv_name (fst x)] (fun n p => write_file n p (Csv t)) (write_local (Csv t))). easy.
Qed.

Lemma write_items_here tab l es :
  (forall x, In x l -> tab x <> None) -> NoDup (map fst l) -> (forall x, In x l -> dget (csv_name (fst x)) es = None) ->
  foreachF (write_item tab []) l (Dir es) = (Ok tt, Dir (es ++ map (item_file tab) l)).
Proof.
  revert es; induction l as [|x l IH]; intros es Ht Hn Ha; cbn [foreachF map]; [now rewrite app_nil_r|].
  unfold bindF. unfold write_item at 1. destruct (tab x) as [t|] eqn:Et; [|exfalso; apply (Ht x); [now left|easy]].
  unfold sys, write_file. cbn [app lookup insert_at]. rewrite (Ha x) by now left.
  rewrite dset_absent by (apply Ha; now left). cbn [map] in Hn. inversion Hn as [|? ? Hx Hn']; subst.
  rewrite IH.
  - rewrite <- app_assoc. cbn [app]. f_equal. f_equal. f_equal. unfold item_file at 2. now rewrite Et.
  - intros y Hy. apply Ht. now right.
  - exact Hn'.
  - intros y Hy. rewrite dget_app. rewrite Ha by now right. cbn [dget].
    destruct (keqb_spec (csv_name (fst y)) (csv_name (fst x))) as [E|]; [|easy].
    apply csv_name_inj in E. exfalso. apply Hx. rewrite <- E. now apply in_map.
Qed.

Lemma write_items tab dir l n :
  (forall x, In x l -> tab x <> None) -> NoDup (map fst l) -> lookup n dir = Some (Dir []) ->
  foreachF (write_item tab dir) l n = (Ok tt, graft n dir (Dir (map (item_file tab) l))).
Proof.
  intros Ht Hn L. rewrite (local_run dir _ (foreachF (write_item tab []) l) n (Dir [])).
  - rewrite write_items_here; auto.
  - apply local_foreach. intros x. apply write_item_local.
  - exact L.
Qed.

Definition subdir (name : string) (files : list (string * node doc)) : list (string * node doc) :=
  match files with [] => [] | _ => [(name, Dir files)] end.

Definition pop_tree (fmt : text_format) (w : world) (po : pop) : node doc :=
  Dir (("ids.csv"%string, File (Csv (ids_table fmt (p_ids po)))) ::
       subdir "attributes" (map (item_file (attr_tab fmt w)) (p_attrs po)) ++
       subdir "relationships" (map (item_file (rel_tab fmt w)) (p_rels po))).

Definition pop_ok (w : world) (po : pop) : Prop :=
  (forall x, In x (p_attrs po) -> nth_error (w_attrs w) (snd x) <> None) /\
  (forall x, In x (p_rels po) -> nth_error (w_rels w) (snd x) <> None) /\
  NoDup (map fst (p_attrs po)) /\ NoDup (map fst (p_rels po)).

(** the directory of items, in a directory holding [es] *)
Lemma save_items_here tab dname l es :
  (forall x, In x l -> tab x <> None) -> NoDup (map fst l) -> dget dname es = None ->
  (match l with
   | [] => retF tt
   | _ => do _ := sys (fun n => os_mkdir n [dname]) in foreachF (write_item tab [dname]) l
   end) (Dir es) = (Ok tt, Dir (es ++ subdir dname (map (item_file tab) l))).
Proof.
  intros Ht Hn Hd. destruct l as [|x l].
  - cbn. now rewrite app_nil_r.
  - unfold bindF, sys at 1. unfold os_mkdir, path_exists. cbn [lookup]. rewrite Hd. cbn [insert_at].
    rewrite write_items; [|exact Ht|exact Hn|].
    + cbn [graft]. rewrite dget_dset, keqb_refl, dset_dset, dset_absent by exact Hd. reflexivity.
    + cbn [lookup]. now rewrite dget_dset, keqb_refl.
Qed.

Lemma local_save_items p tab dname l :
  local p (match l with
           | [] => retF tt
           | _ => do _ := sys (fun n => os_mkdir n (p ++ [dname])) in foreachF (write_item tab (p ++ [dname])) l
           end)
          (match l with
           | [] => retF tt
           | _ => do _ := sys (fun n => os_mkdir n [dname]) in foreachF (write_item tab [dname]) l
           end).
Proof.
  destruct l as [|x l]; [apply local_ret|].
  apply local_bind; [apply (local_sys p [dname] (fun n q => os_mkdir n q) mkdir_local); easy|].
  intros _. apply local_foreach. intros y. unfold write_item. destruct (tab y) as [t|]; [|apply local_raise].
  intros n t0 L. unfold sys, lifted. rewrite <- app_assoc.
  rewrite (write_local (Csv t) n p ([dname] ++ [csv_name (fst y)]) t0) by easy.
  destruct (write_file t0 _ _); cbn; [easy|]. now rewrite graft_same.
Qed.

Lemma bindF_ext {A B} (m : F A) (k k' : A -> F B) n : (forall a n', k a n' = k' a n') -> bindF m k n = bindF m k' n.
Proof. intros H. unfold bindF. destruct (m n) as [[a|e] n']; easy. Qed.

(** population.py:193-222 on a free place *)
Lemma save_population_tree fmt w po folder n : pop_ok w po -> folder <> [] ->
  lookup n folder = None -> forall n1, make_path n folder = Ok n1 -> lookup n1 folder = Some (Dir []) ->
  save_population fmt w po folder n = (Ok tt, graft n1 folder (pop_tree fmt w po)).
Proof.
  intros (Ha & Hr & Na & Nr) Hf L n1 E L1. unfold save_population. unfold bindF at 1. unfold sys at 1.
  unfold ensure_non_existing_dir. rewrite L. unfold bindF at 1. unfold sys at 1.
  unfold os_makedirs, path_exists. rewrite L, E.
  set (attrs_part := match p_attrs po with
                     | [] => retF tt
                     | _ => do _ := sys (fun n => os_mkdir n ["attributes"%string]) in
                            foreachF (write_item (attr_tab fmt w) ["attributes"%string]) (p_attrs po)
                     end).
  set (rels_part := match p_rels po with
                     | [] => retF tt
                     | _ => do _ := sys (fun n => os_mkdir n ["relationships"%string]) in
                            foreachF (write_item (rel_tab fmt w) ["relationships"%string]) (p_rels po)
                     end).
  transitivity (lifted n1 folder
    ((do _ := sys (fun n => write_file n ["ids.csv"%string] (Csv (ids_table fmt (p_ids po)))) in
      do _ := attrs_part in rels_part) (Dir []))).
  - apply local_run; [|exact L1].
    apply local_bind; [apply (local_sys folder ["ids.csv"%string] (fun n q => write_file n q _) (write_local _)); easy|].
    intros _. apply local_bind.
    + unfold attrs_part. intros m t Lm. rewrite <- (local_save_items folder (attr_tab fmt w) "attributes" (p_attrs po) m t Lm).
      destruct (p_attrs po) as [|x l]; [easy|]. apply bindF_ext. intros _ n'. apply foreachF_ext. intros y. apply write_attr_item.
    + intros _. unfold rels_part. intros m t Lm. rewrite <- (local_save_items folder (rel_tab fmt w) "relationships" (p_rels po) m t Lm).
      destruct (p_rels po) as [|x l]; [easy|]. apply bindF_ext. intros _ n'. apply foreachF_ext. intros y. apply write_rel_item.
  - match goal with |- lifted n1 folder ?X = _ => assert (HX : X = (Ok tt, pop_tree fmt w po)) end.
    { unfold bindF at 1. unfold sys at 1. unfold write_file at 1. cbn [lookup dget insert_at dset].
      unfold bindF at 1. unfold attrs_part. rewrite save_items_here.
      + unfold rels_part. rewrite save_items_here.
        * unfold pop_tree. now rewrite <- app_assoc.
        * intros x Hx. unfold rel_tab. specialize (Hr x Hx). destruct (nth_error _ _); easy.
        * exact Nr.
        * destruct (p_attrs po); reflexivity.
      + intros x Hx. unfold attr_tab. specialize (Ha x Hx). destruct (nth_error _ _); easy.
      + exact Na.
      + reflexivity. }
    now rewrite HX.
Qed.
