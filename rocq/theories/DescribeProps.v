(** Proofs about descriptions. *)
From Verif Require Import Base BaseFacts Rng Relationship Frame Gens Clock Attribute World Circus Persist SpecPersist Describe.

Fixpoint dump_items (d : list (string * py)) : result (list (string * tree)) :=
  match d with
  | [] => Ok []
  | (k, y) :: d' => let! t := dumps y in let! ts := dump_items d' in Ok ((k, t) :: ts)
  end.
Lemma dumps_dict d : dumps (PyDict d) = (let! d' := dump_items d in Ok (TDict d')).
Proof. reflexivity. Qed.

Lemma describe_all_ok {A} (heap : list A) f names x : describe_all heap f names = Ok x ->
  exists d, x = PyDict d /\ map fst d = map fst names /\
    (forall n, dget n d = match dget n names with
                          | Some i => match nth_error heap i with Some o => Some (f o) | None => None end
                          | None => None
                          end) /\
    Forall (fun e => exists i o, In (fst e, i) names /\ nth_error heap i = Some o /\ snd e = f o) d.
Proof.
  unfold describe_all. destruct (mapr _ names) as [d|e] eqn:E; [|discriminate]. intros [= <-]. exists d. split; [reflexivity|].
  revert d E. induction names as [|[n i] names IH]; intros d E.
  - cbn in E. injection E as <-. repeat split; constructor.
  - cbn in E. destruct (nth_error heap i) as [o|] eqn:Eo; [|discriminate]. cbn in E.
    destruct (mapr _ names) as [d'|e] eqn:E'; [|discriminate]. cbn in E. injection E as <-.
    destruct (IH d' eq_refl) as (H1 & H2 & H3). split; [|split].
    + cbn. now rewrite H1.
    + intros k. cbn. destruct (keqb k n); [now rewrite Eo|apply H2].
    + constructor; [exists i, o; cbn; auto|]. eapply Forall_impl; [|exact H3]. intros e (i' & o' & H & H'). exists i', o'. split; [now right|exact H'].
Qed.

Lemma dumps_population po : dumps (describe_population po) = Err TypeError.
Proof. reflexivity. Qed.

Lemma dump_items_populations heap names d : describe_all heap describe_population names = Ok (PyDict d) -> names <> [] ->
  dump_items d = Err TypeError.
Proof.
  intros H Hn. destruct (describe_all_ok _ _ _ _ H) as (d' & [= <-] & H1 & _ & H3). destruct d as [|[k x] d].
  - destruct names; [easy|discriminate].
  - inversion H3; subst. destruct H4 as (i & o & _ & _ & E). cbn in E. subst x. reflexivity.
Qed.

Section Circus.
Context (method : np_method -> string) (parameters : np_method -> py) (c : circus).

Lemma description_ok x : description method parameters c = Ok x ->
  exists ps gs, describe_all (w_pops (c_world c)) describe_population (w_pop_names (c_world c)) = Ok ps /\
    describe_all (w_gens (c_world c)) (describe_generator method parameters) (w_gen_names (c_world c)) = Ok gs /\
    x = PyDict [("circus_name"%string, PyText (c_name c)); ("master_seed"%string, PyInt (Z.of_N (c_master_seed c)));
                ("populations"%string, ps); ("generators"%string, gs)].
Proof.
  unfold description. destruct (describe_all (w_pops _) _ _) as [ps|] eqn:Ep; [|discriminate]. cbn [bind].
  destruct (describe_all (w_gens _) _ _) as [gs|] eqn:Eg; [|discriminate]. cbn [bind]. intros [= <-]. now exists ps, gs.
Qed.

Lemma print_fails x : description method parameters c = Ok x -> w_pop_names (c_world c) <> [] -> dumps x = Err TypeError.
Proof.
  intros H Hn. destruct (description_ok x H) as (ps & gs & H1 & H2 & ->). destruct (describe_all_ok _ _ _ _ H1) as (d & -> & _).
  rewrite dumps_dict. cbn [dump_items]. change (dumps (PyText _)) with (@Ok tree (TText (c_name c))). cbn [bind].
  change (dumps (PyInt _)) with (@Ok tree (TInt (Z.of_N (c_master_seed c)))). cbn [bind].
  rewrite dumps_dict, (dump_items_populations _ _ _ H1 Hn). reflexivity.
Qed.

Lemma description_total : (forall n p, In (n, p) (w_pop_names (c_world c)) -> nth_error (w_pops (c_world c)) p <> None) ->
  (forall n g, In (n, g) (w_gen_names (c_world c)) -> nth_error (w_gens (c_world c)) g <> None) ->
  exists x, description method parameters c = Ok x.
Proof.
  intros H1 H2. assert (forall A (heap : list A) f names, (forall n i, In (n, i) names -> nth_error heap i <> None) ->
    exists x, describe_all heap f names = Ok x) as T.
  { intros A heap f names H. unfold describe_all.
    enough (exists d, mapr (fun x : string * nat => match nth_error heap (snd x) with Some o => Ok (fst x, f o) | None => Err Unmodelled end) names = Ok d)
      as (d & ->) by (now exists (PyDict d)).
    induction names as [|[n i] names IH]; [now exists []|]. destruct IH as (d & E); [intros n' i' Hi; apply (H n'); now right|].
    cbn [mapr snd fst]. destruct (nth_error heap i) as [o|] eqn:Eo; [|exfalso; apply (H n i); [now left|assumption]].
    cbn [bind]. rewrite E. now exists ((n, f o) :: d). }
  unfold description. destruct (T _ _ describe_population _ H1) as (ps & ->). cbn [bind].
  destruct (T _ _ (describe_generator method parameters) _ H2) as (gs & ->). cbn [bind]. now eexists.
Qed.

Lemma dump_items_ok d : (forall k x, In (k, x) d -> is_ok (dumps x) = true) ->
  exists d', dump_items d = Ok d' /\ Forall2 (fun a b => fst b = fst a /\ dumps (snd a) = Ok (snd b)) d d'.
Proof.
  induction d as [|[k x] d IH]; intros H; [now exists []|]. destruct IH as (d' & E & F); [intros k' x' Hi; apply (H k'); now right|].
  pose proof (H k x (or_introl eq_refl)) as Hx. destruct (dumps x) as [t|] eqn:Et; [|discriminate].
  cbn [dump_items]. rewrite Et. cbn [bind]. rewrite E. exists ((k, t) :: d'). split; [reflexivity|]. now constructor.
Qed.

Lemma dump_items_fails d k x : In (k, x) d -> is_ok (dumps x) = false -> is_ok (dump_items d) = false.
Proof.
  induction d as [|[k' x'] d IH]; [easy|]. cbn [dump_items]. intros [[= -> ->]|H] Hx.
  - destruct (dumps x); [discriminate|reflexivity].
  - destruct (dumps x'); [|reflexivity]. cbn [bind]. specialize (IH H Hx). now destruct (dump_items d).
Qed.

Lemma dumps_generator g : is_ok (dumps (describe_generator method parameters g)) =
  match g with GNumpy m _ _ => is_ok (dumps (parameters m)) | _ => true end.
Proof. destruct g; try reflexivity. cbn. now destruct (dumps (parameters m)). Qed.
End Circus.
