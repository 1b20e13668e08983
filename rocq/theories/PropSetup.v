(** Stories and circuses are set up as declared (C144). *)
From Verif Require Import Base BaseFacts Rng Utils Relationship Frame Gens Clock Attribute World Story Ops Fs Circus SpecStory StoryFacts StoryProps SpecOps OpsProps
  StoryNew SpecWorld Samples StorySamples NamesKept WorldProps PropStory PropOps SpecSetup SetupProps.
From Coq Require Import Permutation.

(** ** C144.  In each state, the k-th member gets the k-th of the values given by the generators of that state. *)
Theorem C144_parameters order name p f default states t auto w a w' po :
  create_story order name p f default states t auto w = (Ok a, w') -> (forall l, Permutation (order l) l) ->
  match states with Some d => NoDup (dkeys d) | None => True end -> nth_error (w_pops w) p = Some po -> NoDup (p_ids po) ->
  forall st ga gp, In (st, (ga, gp)) (all_states default states) ->
  exists s before acts probs later gens1 gens2 gens3, nth_error (w_stories w') a = Some s /\
    Permutation (before ++ ga :: gp :: later) (gens_of (all_states default states)) /\
    drawn (p_size po) (w_gens w) before gens1 /\ gives gens1 ga (p_size po) acts gens2 /\ gives gens2 gp (p_size po) probs gens3 /\ drawn (p_size po) gens3 later (w_gens w') /\
    length acts = length (p_ids po) /\ length probs = length (p_ids po) /\
    forall k i, nth_error (p_ids po) k = Some i -> forall q, (activity_in s i st q <-> nth_error acts k = Some q) /\ (back_probability_in s i st q <-> nth_error probs k = Some q).
Proof. exact (created_params order name p f default states t auto w a w' po). Qed.
Print Assumptions C144_parameters.

(** A new story is the last one; it has a member for each member of its population, all in the state "default", nobody
    is forced, and without auto_reset_timer nobody is scheduled. *)
Theorem C144_new_story order name p f default states t auto w a w' :
  create_story order name p f default states t auto w = (Ok a, w') -> (forall l, Permutation (order l) l) ->
  exists po s, nth_error (w_pops w) p = Some po /\ w_stories w' = w_stories w ++ [s] /\ a = length (w_stories w) /\
    st_name s = name /\ map fst (st_timer s) = p_ids po /\ st_ops s = [] /\
    (forall i, In i (p_ids po) -> in_state w' a i "default" /\ ~ is_forced w' a i /\ (auto = false -> counter w' a i (Some (-1)%Z))) /\
    (forall st, In st (st_states s) <-> In st (map fst (all_states default states))).
Proof.
  intros H Ho. destruct (created _ _ _ _ _ _ _ _ _ _ _ H Ho) as (po & s & H1 & H2 & H3 & H4 & H5 & H6 & H7 & H8 & H9 & H10 & H11 & H12 & H13 & H14 & _).
  exists po, s. do 6 (split; [assumption|]). split.
  - intros i Hi. split; [|split].
    + pose proof (H12 i Hi) as E. unfold state_of in E. destruct (dget i (st_timer s)) as [[x r]|] eqn:D; [|discriminate]. cbn in E. injection E as ->. exists s, r. split; [exact H4|now apply dget_In].
    + intros (s' & E & K). assert (s' = s) by congruence. subst s'. rewrite H10 in K. exact K.
    + intros Ha. pose proof (H14 Ha i Hi) as E. unfold remaining_of in E. destruct (dget i (st_timer s)) as [[x r]|] eqn:D; [|discriminate]. cbn in E. injection E as ->. exists s, x. split; [exact H4|now apply dget_In].
  - intros st. rewrite H13. unfold all_states. destruct states as [d|]; cbn; intuition.
Qed.
Print Assumptions C144_new_story.

(** Stories are found by their name, and only by it. *)
Theorem C144_found g w a s : built g w -> nth_error (w_stories w) a = Some s ->
  find_story (st_name s) (w_stories w) 0 = Some a /\ get_population_of (st_name s) w = (Ok (st_pop s), w).
Proof.
  intros B H. assert (E : find_story (st_name s) (w_stories w) 0 = Some a) by (apply story_found; [now apply (built_names g w)|exact H]).
  split; [exact E|]. unfold get_population_of, bindM, get, deref. rewrite E, H. reflexivity.
Qed.
Print Assumptions C144_found.
Theorem C144_not_found name w : ~ In name (map st_name (w_stories w)) ->
  find_story name (w_stories w) 0 = None /\ get_population_of name w = (Err AttributeError, w).
Proof.
  intros H. apply (find_story_In name (w_stories w) 0) in H. split; [exact H|]. unfold get_population_of, bindM, get. now rewrite H.
Qed.
Print Assumptions C144_not_found.

(** set_operations gives the story these operations and a last one, which sends members back to the default state by
    comparing their probability with numbers of a new uniform generator. *)
Theorem C144_set_operations a ops w s : nth_error (w_stories w) a = Some s ->
  exists w' s' judge, set_operations a ops w = (Ok tt, w') /\ nth_error (w_stories w') a = Some s' /\ st_ops s' = ops ++ [OpBack a judge] /\
    nth_error (w_gens w) judge = None /\ nth_error (w_gens w') judge = Some (GNumpy NpUniform (random_state (w_prng w) 1234) None) /\
    (forall i, i <> judge -> nth_error (w_gens w') i = nth_error (w_gens w) i) /\ (forall b, b <> a -> nth_error (w_stories w') b = nth_error (w_stories w) b) /\
    static (with_ops s (ops ++ [OpBack a judge])) s' /\ st_timer s' = st_timer s /\ st_forced s' = st_forced s.
Proof.
  intros H. unfold set_operations, bindM, deref, get, modify, put_story. rewrite H. eexists _, (with_ops s (ops ++ [OpBack a (length (w_gens w))])), (length (w_gens w)).
  split; [reflexivity|]. cbn [w_stories w_gens set_stories set_gens].
  assert (L : a < length (w_stories w)) by (apply nth_error_Some; congruence).
  split; [rewrite nth_error_set_nth, Nat.eqb_refl, H; reflexivity|]. split; [reflexivity|]. split; [apply nth_error_None; lia|].
  split; [rewrite nth_error_app2, Nat.sub_diag by lia; reflexivity|]. split.
  { intros i Hi. destruct (Nat.lt_ge_cases i (length (w_gens w))); [now rewrite nth_error_app1 by assumption|].
    rewrite (proj2 (nth_error_None _ _)); [symmetry; apply nth_error_None; lia|rewrite app_length; cbn; lia]. }
  split; [|split; [apply static_refl|auto]]. intros b Hb. rewrite nth_error_set_nth. destruct (Nat.eqb_spec a b); [congruence|]. reflexivity.
Qed.
Print Assumptions C144_set_operations.

(** append_operations: the new ones come last, after the return to the default state. *)
Theorem C144_append_operations a ops w s : nth_error (w_stories w) a = Some s ->
  exists w' s', append_operations a ops w = (Ok tt, w') /\ nth_error (w_stories w') a = Some s' /\ st_ops s' = st_ops s ++ ops /\
    w_gens w' = w_gens w /\ (forall b, b <> a -> nth_error (w_stories w') b = nth_error (w_stories w) b) /\
    static (with_ops s (st_ops s ++ ops)) s' /\ st_timer s' = st_timer s /\ st_forced s' = st_forced s.
Proof.
  intros H. unfold append_operations, bindM, deref, put_story. rewrite H. eexists _, (with_ops s (st_ops s ++ ops)).
  split; [reflexivity|]. cbn [w_stories w_gens set_stories set_gens].
  split; [rewrite nth_error_set_nth, Nat.eqb_refl, H; reflexivity|]. split; [reflexivity|]. split; [reflexivity|].
  split; [|split; [apply static_refl|auto]]. intros b Hb. rewrite nth_error_set_nth. destruct (Nat.eqb_spec a b); [congruence|]. reflexivity.
Qed.
Print Assumptions C144_append_operations.

(** The clock of a new circus gets the first seed of seed_provider(master_seed); the seeds asked from the circus
    are the next ones. *)
Fixpoint ask_seeds (n : nat) : M (list N) :=
  match n with O => ret [] | S n' => let* x := next_of_seeder in let* l := ask_seeds n' in ret (x :: l) end.
Lemma asked n : forall w, exists w', ask_seeds n w = (Ok (map (kth_seed (w_seeder w)) (seq 0 n)), w').
Proof.
  induction n as [|n IH]; intros w; [eexists; reflexivity|]. cbn [ask_seeds seq map]. rewrite <- seq_shift, map_map.
  unfold next_of_seeder, bindM at 1 2 3, get, modify, ret at 1. destruct (next_seed (w_seeder w)) as [x st] eqn:E.
  destruct (IH (set_seeder st w)) as [w' H]. exists w'. cbv beta iota. unfold bindM. rewrite H. unfold ret. cbn [w_seeder set_seeder kth_seed]. rewrite E. reflexivity.
Qed.
Theorem C144_seeds g seed start step n : exists w',
  w_clock (new_circus g seed start step) = mkClock start step (random_state g (kth_seed (random_state g seed) 0)) [] /\
  ask_seeds n (new_circus g seed start step) = (Ok (map (fun k => kth_seed (random_state g seed) (S k)) (seq 0 n)), w').
Proof.
  unfold new_circus. cbn [kth_seed]. destruct (next_seed (random_state g seed)) as [x st]. cbn [fst snd].
  destruct (asked n (mkWorld g st (new_clock g start step x) [] [] [] [] [] [] [] [] [])) as [w' H]. exists w'. split; [reflexivity|exact H].
Qed.
Print Assumptions C144_seeds.

(** The story "visits" of the three people: activity 1 everywhere, and probability 0 by default, 1 when busy. *)
Definition visits_made : world := snd (create_story keep_order "visits" 0 "PERSON" (0, 1) (Some [("busy"%string, (0, 2))]) 0 true people).
Example C144_example : exists po, create_story keep_order "visits" 0 "PERSON" (0, 1) (Some [("busy"%string, (0, 2))]) 0 true people = (Ok 0, visits_made) /\
  nth_error (w_pops people) 0 = Some po /\ NoDup (p_ids po) /\ In ("busy"%string, (0, 2)) (all_states (0, 1) (Some [("busy"%string, (0, 2))])) /\
  (exists s, nth_error (w_stories visits_made) 0 = Some s /\ activity_in s (s_ "B") "busy" 1 /\ back_probability_in s (s_ "B") "busy" 1 /\ back_probability_in s (s_ "B") "default" 0) /\
  map fst (w_pop_names people) = ["people"%string].
Proof.
  eexists. split; [vm_compute; reflexivity|]. split; [vm_compute; reflexivity|]. split; [apply nodupb_NoDup; reflexivity|]. split; [cbn; tauto|]. split; [|vm_compute; reflexivity].
  eexists. split; [vm_compute; reflexivity|]. cbn [st_params]. repeat split; eexists _, _; (split; [right; left; reflexivity|]); (split; [cbn; first [left; reflexivity|right; left; reflexivity]|reflexivity]).
Qed.
Example C144_operations_example : exists w s, set_operations 0 logging visits_made = (Ok tt, w) /\ append_operations 0 [OpDropRow "stop"] w = (Ok tt, snd (append_operations 0 [OpDropRow "stop"] w)) /\
  nth_error (w_stories (snd (append_operations 0 [OpDropRow "stop"] w))) 0 = Some s /\ st_ops s = logging ++ [OpBack 0 3; OpDropRow "stop"].
Proof.
  eexists _, _. split; [vm_compute; reflexivity|]. split; [vm_compute; reflexivity|]. split; [vm_compute; reflexivity|]. reflexivity.
Qed.
