(** Specification vocabulary for populations: what a circus shows of its populations,
    attributes and relationships. *)
From Verif Require Import Base Relationship Frame Gens Attribute World SpecOps SpecWorld.

(** Member [i] belongs to population [p]. *)
Definition member (w : world) (p : nat) (i : val) : Prop :=
  exists po, nth_error (w_pops w) p = Some po /\ In i (p_ids po).

(** The attribute (relationship) called [name] of population [p] is the object [a]. *)
Definition attribute_at (w : world) (p : nat) (name : string) (a : nat) : Prop :=
  exists po, nth_error (w_pops w) p = Some po /\ dget name (p_attrs po) = Some a.
Definition relationship_at (w : world) (p : nat) (name : string) (r : nat) : Prop :=
  exists po, nth_error (w_pops w) p = Some po /\ dget name (p_rels po) = Some r.

(** Attribute [a] has value [v] for member [k]; it has at most one value per member. *)
Definition holds (w : world) (a : nat) (k v : val) : Prop :=
  exists t, nth_error (w_attrs w) a = Some t /\ In (k, v) t.
Definition single_valued (w : world) (a : nat) : Prop :=
  exists t, nth_error (w_attrs w) a = Some t /\ NoDup (map fst t).

(** Only the attributes changed from [w] to [w']; only attribute [a]. *)
Definition only_attributes (w w' : world) : Prop :=
  w' = set_attrs (w_attrs w') w /\ length (w_attrs w') = length (w_attrs w).
Definition only_attribute (a : nat) (w w' : world) : Prop :=
  only_attributes w w' /\ forall b, b <> a -> nth_error (w_attrs w') b = nth_error (w_attrs w) b.

(** [w'] is reached from [w] by calls of the library. *)
Inductive later (w : world) : world -> Prop :=
| later_now : later w w
| later_call c w' : later w w' -> later w (after_call c w').

(** Same definition of a generator; only its position in its random stream, its counter
    or its pool may differ. *)
Definition same_gen (g g' : gen) : Prop :=
  match g, g' with
  | GConst v, GConst v' => v = v'
  | GFixed vs, GFixed vs' => vs = vs'
  | GNumpy m _ b, GNumpy m' _ b' => m = m' /\ (b = None <-> b' = None)
  | GPareto x f l _, GPareto x' f' l' _ => x = x' /\ f = f' /\ l = l'
  | GSeq _ p m, GSeq _ p' m' => p = p' /\ m = m'
  | GOracle v _, GOracle v' _ => v = v'
  | GMsisdn c p w f _ _, GMsisdn c' p' w' f' _ _ => c = c' /\ p = p' /\ w = w' /\ f = f'
  | GMap p f, GMap p' f' => p = p' /\ f = f'
  | GBulk p e, GBulk p' e' => p = p' /\ e = e'
  | _, _ => False
  end.
Definition gens_kept (h h' : list gen) : Prop :=
  forall i g, nth_error h i = Some g -> exists g', nth_error h' i = Some g' /\ same_gen g g'.

(** The (member, value) pairs that the columns [id_field] and [added] of a story data list. *)
Definition listed (d : df) (id_field added : string) : list (val * val) :=
  map (fun row => (cell (df_cols d) (snd row) id_field, cell (df_cols d) (snd row) added)) (df_rows d).
