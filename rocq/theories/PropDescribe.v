(** Property theorems about descriptions of circuses (C129). *)
From Verif Require Import Base BaseFacts Rng Relationship Frame Gens Clock Attribute World Story Circus Samples StorySamples SpecWorld Persist SpecPersist
  PropPopulation PropPersist Describe DescribeProps.

(** ** C129.  What description() tells: the name, the seed, and under their names the populations (size and names
    of attributes and relationships) and the generators. *)
Definition field (x : py) (k : string) : option py := match x with PyDict d => dget k d | _ => None end.

Theorem C129_description_tells method parameters c x : description method parameters c = Ok x ->
  field x "circus_name" = Some (PyText (c_name c)) /\ field x "master_seed" = Some (PyInt (Z.of_N (c_master_seed c))) /\
  (exists pops, field x "populations" = Some pops /\ forall n,
     match population_named (c_world c) n with
     | None => field pops n = None
     | Some po => exists y attributes relationships, field pops n = Some y /\ field y "size" = Some (PyInt (p_size po)) /\
         field y "attributes" = Some (PyKeys attributes) /\ (forall a, In a attributes <-> dget a (p_attrs po) <> None) /\
         field y "relationships" = Some (PyKeys relationships) /\ (forall r, In r relationships <-> dget r (p_rels po) <> None)
     end) /\
  (exists gens, field x "generators" = Some gens /\ forall n,
     match generator_named (c_world c) n with
     | None => field gens n = None
     | Some g => exists y, field gens n = Some y /\
         match g with
         | GNumpy m _ _ => field y "type" = Some (PyText "NumpyRandomGenerator") /\ field y "method" = Some (PyText (method m)) /\
                           field y "numpy_parameters" = Some (parameters m)
         | GSeq _ prefix max_length => field y "type" = Some (PyText "SequencialGenerator") /\ field y "prefix" = Some (PyText prefix) /\
                                       field y "max_length" = Some (PyInt (Z.of_nat max_length))
         | _ => y = PyDict []
         end
     end).
Proof.
  intros H. destruct (description_ok _ _ _ _ H) as (ps & gs & H1 & H2 & ->).
  destruct (describe_all_ok _ _ _ _ H1) as (d1 & -> & _ & F1 & _). destruct (describe_all_ok _ _ _ _ H2) as (d2 & -> & _ & F2 & _).
  split; [reflexivity|]. split; [reflexivity|].
  assert (K : forall (d : dict string nat) a, In a (dkeys d) <-> dget a d <> None).
  { intros d a. unfold dkeys. induction d as [|[k v] d IH]; cbn; [split; [easy|congruence]|].
    destruct (keqb_spec a k) as [->|Hk]; [split; [congruence|now left]|]. rewrite <- IH. split; [intros [->|]; [easy|assumption]|now right]. }
  split.
  - exists (PyDict d1). split; [reflexivity|]. intros n. cbn [field]. rewrite F1. unfold population_named.
    destruct (dget n _) as [p|]; [|reflexivity]. destruct (nth_error _ p) as [po|]; [|reflexivity].
    exists (describe_population po), (dkeys (p_attrs po)), (dkeys (p_rels po)). repeat split; try apply K.
  - exists (PyDict d2). split; [reflexivity|]. intros n. cbn [field]. rewrite F2. unfold generator_named.
    destruct (dget n _) as [p|]; [|reflexivity]. destruct (nth_error _ p) as [g|]; [|reflexivity].
    exists (describe_generator method parameters g). split; [reflexivity|]. destruct g; repeat split; reflexivity.
Qed.
Print Assumptions C129_description_tells.

(** It is always given when names denote objects. *)
Theorem C129_description_total method parameters c :
  (forall n p, In (n, p) (w_pop_names (c_world c)) -> nth_error (w_pops (c_world c)) p <> None) ->
  (forall n g, In (n, g) (w_gen_names (c_world c)) -> nth_error (w_gens (c_world c)) g <> None) ->
  exists x, description method parameters c = Ok x.
Proof. exact (description_total method parameters c). Qed.
Print Assumptions C129_description_total.

(** Printing a circus is another matter: no circus which has a population can be printed. *)
Theorem C129_never_printed method parameters c x : description method parameters c = Ok x ->
  w_pop_names (c_world c) <> [] -> str_circus method parameters c = Err TypeError.
Proof. intros H Hn. unfold str_circus. rewrite H. exact (print_fails _ _ c x H Hn). Qed.
Print Assumptions C129_never_printed.

Definition no_name (m : np_method) : string := "uniform".
Definition no_parameters (m : np_method) : py := PyDict [].
Theorem C129_print_refuted : exists c x, built stream (c_world c) /\ description no_name no_parameters c = Ok x /\
  str_circus no_name no_parameters c = Err TypeError.
Proof.
  destruct (C129_description_total no_name no_parameters bazaar) as (x & E).
  - assert (E : w_pop_names (c_world bazaar) = [("people"%string, 0)]) by (vm_compute; reflexivity). rewrite E.
    intros n p [[= <- <-]|[]]. vm_compute. congruence.
  - assert (E : w_gen_names (c_world bazaar) = [("ids"%string, 3); ("noise"%string, 4)]) by (vm_compute; reflexivity). rewrite E.
    intros n p [[= <- <-]|[[= <- <-]|[]]]; vm_compute; congruence.
  - exists bazaar, x. split; [exact bazaar_built|]. split; [exact E|]. apply (C129_never_printed _ _ bazaar x E). vm_compute. congruence.
Qed.
Print Assumptions C129_print_refuted.

(** A circus without populations is printed if and only if json accepts the parameters of its numpy generators; the
    text then tells the name, the seed and the generators. *)
Theorem C129_printed_without_populations method parameters c x : description method parameters c = Ok x ->
  w_pop_names (c_world c) = [] -> NoDup (dkeys (w_gen_names (c_world c))) ->
  ((exists t, str_circus method parameters c = Ok t) <->
   forall n m s b, generator_named (c_world c) n = Some (GNumpy m s b) -> is_ok (dumps (parameters m)) = true) /\
  (forall t, str_circus method parameters c = Ok t -> exists gens,
     t = TDict [("circus_name"%string, TText (c_name c)); ("master_seed"%string, TInt (Z.of_N (c_master_seed c)));
                ("populations"%string, TDict []); ("generators"%string, TDict gens)] /\
     map fst gens = dkeys (w_gen_names (c_world c))).
Proof.
  intros H Hn Nd. unfold str_circus. rewrite H. cbn [bind].
  destruct (description_ok _ _ _ _ H) as (ps & gs & H1 & H2 & ->).
  rewrite Hn in H1. cbn in H1. injection H1 as <-. destruct (describe_all_ok _ _ _ _ H2) as (d & -> & Hk & F & A).
  rewrite dumps_dict. cbn [dump_items]. change (dumps (PyText _)) with (@Ok tree (TText (c_name c))). cbn [bind].
  change (dumps (PyInt _)) with (@Ok tree (TInt (Z.of_N (c_master_seed c)))). cbn [bind].
  change (dumps (PyDict [])) with (@Ok tree (TDict [])). cbn [bind]. rewrite dumps_dict.
  assert (Look : forall k i, In (k, i) (w_gen_names (c_world c)) -> dget k (w_gen_names (c_world c)) = Some i).
  { clear - Nd. unfold dkeys in Nd. induction (w_gen_names (c_world c)) as [|[k0 i0] l IH]; [easy|]. cbn in Nd. inversion Nd; subst.
    intros k i [[= -> ->]|Hi]; cbn; [now rewrite keqb_refl|]. destruct (keqb_spec k k0) as [->|_]; [|now apply IH].
    exfalso. apply H1. change k0 with (fst (k0, i)). now apply in_map. }
  assert (Mem : forall k y, In (k, y) d -> dget k d = Some y).
  { intros k y Hi. rewrite Forall_forall in A. destruct (A (k, y) Hi) as (i & o & Hi' & Ho & Ey). cbn in *. now rewrite F, (Look _ _ Hi'), Ho, Ey. }
  split; [split|].
  - intros (t & Et) n m s b G. destruct (is_ok (dumps (parameters m))) eqn:Eb; [reflexivity|exfalso].
    assert (In (n, describe_generator method parameters (GNumpy m s b)) d) as Hi.
    { unfold generator_named in G. specialize (F n). destruct (dget n (w_gen_names _)) as [i|]; [|discriminate]. rewrite G in F.
      clear - F. induction d as [|[k y] d IH]; [discriminate|]. cbn in F. destruct (keqb_spec n k) as [->|_]; [injection F as ->; now left|right; auto]. }
    pose proof (dump_items_fails d n _ Hi) as Hf. rewrite dumps_generator in Hf. specialize (Hf Eb). destruct (dump_items d); discriminate.
  - intros P. destruct (dump_items_ok d) as (d' & -> & _); [|now eexists].
    intros k y Hi. rewrite Forall_forall in A. destruct (A (k, y) Hi) as (i & g & Hi' & Hg & Ey). cbn [fst snd] in *. subst y.
    rewrite dumps_generator. destruct g; try reflexivity. apply (P k m state bound). unfold generator_named. now rewrite (Look _ _ Hi').
  - intros t. destruct (dump_items d) as [d'|] eqn:Ed; [|discriminate]. cbn [bind]. intros [= <-]. exists d'. split; [reflexivity|].
    unfold dkeys. rewrite <- Hk. clear - Ed. revert d' Ed. induction d as [|[k y] d IH]; intros d' Ed; cbn [dump_items] in Ed; [now injection Ed as <-|].
    destruct (dumps y); [|discriminate]. cbn [bind] in Ed. destruct (dump_items d); [|discriminate]. cbn [bind] in Ed. injection Ed as <-. cbn. now rewrite (IH _ eq_refl).
Qed.
Print Assumptions C129_printed_without_populations.

Definition quiet : circus :=
  mkCircus "quiet" 7 0 3600
    (calls circus0 [CNewGen (GSeq 0 "A_" 4); CNewGen (GNumpy NpUniform (random_state stream 7) None);
                    CAttachGenerator "ids" 0; CAttachGenerator "noise" 1]).
Example C129_example : built stream (c_world quiet) /\
  (exists x, description no_name no_parameters quiet = Ok x /\ w_pop_names (c_world quiet) = [] /\ NoDup (dkeys (w_gen_names (c_world quiet)))) /\
  str_circus no_name no_parameters quiet =
    Ok (TDict [("circus_name"%string, TText "quiet"); ("master_seed"%string, TInt 7); ("populations"%string, TDict []);
               ("generators"%string,
                TDict [("ids"%string, TDict [("type"%string, TText "SequencialGenerator"); ("prefix"%string, TText "A_"); ("max_length"%string, TInt 4)]);
                       ("noise"%string, TDict [("type"%string, TText "NumpyRandomGenerator"); ("method"%string, TText "uniform");
                                               ("numpy_parameters"%string, TDict [])])])]).
Proof.
  split; [unfold quiet; cbn [c_world]; apply built_calls; [constructor|repeat constructor]|]. split.
  - eexists. split; [vm_compute; reflexivity|]. split; [vm_compute; reflexivity|]. vm_compute. repeat constructor; cbn; intuition discriminate.
  - vm_compute. reflexivity.
Qed.
