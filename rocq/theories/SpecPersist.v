(** Specification vocabulary for persistence. *)
From Verif Require Import Base Rng Relationship SpecRelationship Frame Gens Clock Attribute World Circus Fs Persist.

(** The number is read back from its text. *)
Definition survives (fmt : text_format) (q : Qc) : Prop := read_num fmt (show_num fmt q) = Some q.

(** A format in which integers are read back, "0" is a number, no number looks like a missing
    value, nor a boolean. *)
Record sane (fmt : text_format) : Prop := {
  integers_survive : forall z, survives fmt (Q2Qc (inject_Z z));
  zero_is_number : read_num fmt "0" <> None;
  numbers_not_missing : forall q, ~ In (show_num fmt q) na_texts;
  booleans_no_number : forall s b, bool_text s = Some b -> read_num fmt s = None
}.

(** What a column may hold. *)
Definition number_column (fmt : text_format) (vs : list val) : Prop :=
  forall v, In v vs -> v = VNA \/ exists q, v = VNum q /\ survives fmt q.
Definition bool_column (vs : list val) : Prop :=
  forall v, In v vs -> v = VNA \/ exists b, v = VBool b.
(** texts, one of them at least not looking like a number *)
Definition text_column (fmt : text_format) (vs : list val) : Prop :=
  (forall v, In v vs -> v = VNA \/ exists s, v = VStr s /\ ~ In s na_texts) /\
  (exists s, In (VStr s) vs /\ read_num fmt s = None).
(** one text at least not looking like a boolean *)
Definition not_boolean (vs : list val) : Prop := exists s, In (VStr s) vs /\ bool_text s = None.

Definition clean_values (fmt : text_format) (vs : list val) : Prop :=
  number_column fmt vs \/ bool_column vs \/ (text_column fmt vs /\ not_boolean vs).
Definition clean_ids (fmt : text_format) (vs : list val) : Prop :=
  number_column fmt vs \/ text_column fmt vs.

(** A relationship whose ids and weights have a faithful text: at least one relation, ids that
    are all numbers or all texts, none missing. *)
Definition rel_ids (r : relationship) : list val :=
  flat_map (fun '(f, t, _) => [f; t]) (stored r).
Definition clean_rel (fmt : text_format) (r : relationship) : Prop :=
  stored r <> [] /\ clean_ids fmt (rel_ids r) /\ ~ In VNA (rel_ids r) /\
  (forall f t w, In (f, t, w) (stored r) -> survives fmt (Q2Qc w)).

(** The relations, weights as numbers. *)
Definition weighted (r : relationship) : list (val * val * Qc) :=
  map (fun '(f, t, w) => (f, t, Q2Qc w)) (stored r).

(** Both hold the same relations (as a multiset) and were created with the same seed. *)
Definition same_relations (r r' : relationship) : Prop :=
  r_seed r' = r_seed r /\ Permutation (weighted r') (weighted r).

(** What a population shows under a name. *)
Definition attribute_of (w : world) (po : pop) (name : string) : option series :=
  match dget name (p_attrs po) with Some a => nth_error (w_attrs w) a | None => None end.
Definition relationship_of (w : world) (po : pop) (name : string) : option relationship :=
  match dget name (p_rels po) with Some r => nth_error (w_rels w) r | None => None end.

(** What a circus shows under a name. *)
Definition population_named (w : world) (name : string) : option pop :=
  match dget name (w_pop_names w) with Some p => nth_error (w_pops w) p | None => None end.
Definition generator_named (w : world) (id : string) : option gen :=
  match dget id (w_gen_names w) with Some g => nth_error (w_gens w) g | None => None end.

(** Both are absent, or both present and related. *)
Definition both {A} (R : A -> A -> Prop) (x y : option A) : Prop :=
  match x, y with
  | None, None => True
  | Some a, Some b => R a b
  | _, _ => False
  end.

(** Same ids in the same order, same attributes, same relationships. *)
Record same_population (w : world) (po : pop) (w' : world) (po' : pop) : Prop := {
  same_ids : p_ids po' = p_ids po;
  same_size : p_size po' = Z.of_nat (length (p_ids po));
  same_attributes : forall name, attribute_of w' po' name = attribute_of w po name;
  same_relationships : forall name,
    both same_relations (relationship_of w po name) (relationship_of w' po' name)
}.

(** A population that has a faithful text: names refer to objects, ids, tables and relations
    are made of values that text files keep. *)
Record clean_population (fmt : text_format) (w : world) (po : pop) : Prop := {
  known_attributes : forall name a, In (name, a) (p_attrs po) -> exists t, nth_error (w_attrs w) a = Some t;
  known_relationships : forall name r, In (name, r) (p_rels po) -> exists x, nth_error (w_rels w) r = Some x;
  distinct_attributes : NoDup (map fst (p_attrs po));
  distinct_relationships : NoDup (map fst (p_rels po));
  clean_member_ids : clean_ids fmt (p_ids po);
  clean_attributes : forall name t, attribute_of w po name = Some t ->
    clean_values fmt (map fst t) /\ clean_values fmt (map snd t);
  clean_relationships : forall name r, relationship_of w po name = Some r ->
    reachable r /\ clean_rel fmt r
}.

(** The relationships are at the start of the random stream of their seed. *)
Definition fresh_relationships (g : prng) (w : world) (po : pop) : Prop :=
  forall name r, relationship_of w po name = Some r -> r_state r = random_state g (r_seed r).

(** The generators that have a text, and what a reloaded one is.  A numpy generator keeps its
    method, parameters and recorded state, but draws from a generator seeded with 1234. *)
Definition savable (x : gen) : Prop :=
  match x with GNumpy _ _ _ | GSeq _ _ _ => True | _ => False end.
Definition reloads (g : prng) (x y : gen) : Prop :=
  match x with
  | GNumpy m state _ => y = GNumpy m state (Some (random_state g 1234))
  | GSeq _ _ _ => y = x
  | _ => False
  end.

Fixpoint no_dot (s : string) : Prop :=
  match s with
  | EmptyString => True
  | String c s' => c <> "."%char /\ no_dot s'
  end.

(** A circus with a faithful text: at least one population, clean ones, savable generators whose
    ids have no dot. *)
Record clean_circus (fmt : text_format) (c : circus) : Prop := {
  some_population : w_pop_names (c_world c) <> [];
  distinct_populations : NoDup (map fst (w_pop_names (c_world c)));
  clean_populations : forall name p, In (name, p) (w_pop_names (c_world c)) ->
    exists po, nth_error (w_pops (c_world c)) p = Some po /\ clean_population fmt (c_world c) po;
  distinct_generators : NoDup (map fst (w_gen_names (c_world c)));
  clean_generators : forall id k, In (id, k) (w_gen_names (c_world c)) ->
    no_dot id /\ exists x, nth_error (w_gens (c_world c)) k = Some x /\ savable x;
  start_survives : read_date fmt (show_date fmt (c_start c)) = Some (c_start c);
  step_survives : read_span fmt (show_span fmt (c_step c)) = Some (c_step c)
}.

(** [c'] is [c] as reloaded: same name, seed, clock parameters, populations and generators; its
    clock and its seeds are those of a new circus, and it has no story. *)
Record same_circus (g : prng) (c c' : circus) : Prop := {
  same_name : c_name c' = c_name c;
  same_seed : c_master_seed c' = c_master_seed c;
  same_start : c_start c' = c_start c;
  same_step : c_step c' = c_step c;
  same_populations : forall name,
    both (fun po po' => same_population (c_world c) po (c_world c') po' /\
                        fresh_relationships g (c_world c') po')
         (population_named (c_world c) name) (population_named (c_world c') name);
  same_generators : forall id,
    both (reloads g) (generator_named (c_world c) id) (generator_named (c_world c') id);
  new_seeder : w_seeder (c_world c') = w_seeder (new_circus g (c_master_seed c) (c_start c) (c_step c));
  clock_at_start : w_clock (c_world c') = w_clock (new_circus g (c_master_seed c) (c_start c) (c_step c));
  no_story : w_stories (c_world c') = []
}.
