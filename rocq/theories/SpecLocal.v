(** Specification vocabulary for locality: the objects of a circus, which of them an operation or
    a story was given, and what it means to leave an object alone. *)
From Verif Require Import Base Rng Relationship Frame Gens Clock Attribute World Story Ops Circus SpecStory SpecWorld.

(** The objects of a circus that can change, by address. *)
Inductive object :=
| OAttribute (a : nat)
| ORelationship (r : nat)
| OGenerator (g : nat)
| ODependent (g : nat)
| OTimer (t : nat)
| OPopulation (p : nat)
| OStory (s : nat)
| OClock
| OSeeder
| OPopulationNames
| OGeneratorNames.

(** The object [x] is the same in both circuses. *)
Definition same (x : object) (w w' : world) : Prop :=
  match x with
  | OAttribute a => nth_error (w_attrs w') a = nth_error (w_attrs w) a
  | ORelationship r => nth_error (w_rels w') r = nth_error (w_rels w) r
  | OGenerator g => nth_error (w_gens w') g = nth_error (w_gens w) g
  | ODependent g => nth_error (w_dgens w') g = nth_error (w_dgens w) g
  | OTimer t => nth_error (w_tgens w') t = nth_error (w_tgens w) t
  | OPopulation p => nth_error (w_pops w') p = nth_error (w_pops w) p
  | OStory s => nth_error (w_stories w') s = nth_error (w_stories w) s
  | OClock => w_clock w' = w_clock w
  | OSeeder => w_seeder w' = w_seeder w
  | OPopulationNames => w_pop_names w' = w_pop_names w
  | OGeneratorNames => w_gen_names w' = w_gen_names w
  end.

(** The generators a generator was built from: itself, and those of its parents, which are created
    before it. *)
Inductive built_from (h : list gen) : nat -> nat -> Prop :=
| bf_self i : built_from h i i
| bf_map i p f j : nth_error h i = Some (GMap p f) -> p < i -> built_from h p j -> built_from h i j
| bf_bulk_parent i p e j : nth_error h i = Some (GBulk p e) -> p < i -> built_from h p j -> built_from h i j
| bf_bulk_elem i p e j : nth_error h i = Some (GBulk p e) -> e < i -> built_from h e j -> built_from h i j.

Definition generator_of (w : world) (g : nat) (x : object) : Prop :=
  exists j, x = OGenerator j /\ built_from (w_gens w) g j.

Definition dependent_of (w : world) (g : nat) (x : object) : Prop :=
  x = ODependent g \/
  exists e, nth_error (w_dgens w) g = Some (DBulk e) /\ generator_of w e x.

(** An attribute of population [p]. *)
Definition attribute_of (w : world) (p : nat) (x : object) : Prop :=
  exists po name a, nth_error (w_pops w) p = Some po /\ In (name, a) (p_attrs po) /\ x = OAttribute a.

(** The timer generator of story [a]. *)
Definition timer_of (w : world) (a : nat) (x : object) : Prop :=
  exists s, nth_error (w_stories w) a = Some s /\ x = OTimer (st_tgen s).

(** Objects an operation may change ... *)
Fixpoint changes (w : world) (o : op) (x : object) : Prop :=
  match o with
  | OpFieldLogger _ _ _ | OpDropRow _ | OpApply _ _ _ => False
  | OpTimestamp _ random _ => random = true /\ x = OClock
  | OpGenerate g _ _ => generator_of w g x
  | OpGenerateDep g _ _ => dependent_of w g x
  | OpNeighbours _ _ _ | OpSelectAll _ _ _ => False
  | OpSelectOne r _ _ _ _ _ _ | OpSelectMany r _ _ _ _ _ | OpRelAdd r _ _ | OpRelAddGrouped r _ _ => x = ORelationship r
  | OpRelRemove _ _ _ => False
  | OpAttrUpdate a _ _ | OpAttrAdd a _ _ _ => x = OAttribute a
  | OpLookup _ _ _ => False
  | OpPopUpdate p _ _ => x = OPopulation p \/ attribute_of w p x
  | OpForce a _ _ => x = OStory a
  | OpReset a _ => x = OStory a \/ timer_of w a x
  | OpTransit a _ _ _ => x = OStory a
  | OpBack a judge => x = OStory a \/ generator_of w judge x
  | OpChain ops => (fix some (l : list op) := match l with [] => False | o :: l' => changes w o x \/ some l' end) ops
  end.

(** ... and those it may look at or change. *)
Fixpoint uses (w : world) (o : op) (x : object) : Prop :=
  match o with
  | OpTimestamp _ _ _ => x = OClock
  | OpNeighbours r _ _ | OpSelectAll r _ _ => x = ORelationship r
  | OpLookup p _ _ => x = OPopulation p \/ attribute_of w p x
  | OpChain ops => (fix some (l : list op) := match l with [] => False | o :: l' => uses w o x \/ some l' end) ops
  | _ => changes w o x
  end.

(** The same for one execution of a story. *)
Definition story_objects (of_op : op -> object -> Prop) (w : world) (a : nat) (x : object) : Prop :=
  x = OStory a \/ timer_of w a x \/
  exists s o, nth_error (w_stories w) a = Some s /\ In o (st_ops s) /\ of_op o x.
Definition story_changes (w : world) (a : nat) : object -> Prop := story_objects (changes w) w a.
Definition story_uses (w : world) (a : nat) : object -> Prop := story_objects (uses w) w a.

(** Calls of the user: existing objects a call may change. *)
Definition present (x : object) (w : world) : Prop :=
  match x with
  | OAttribute a => a < length (w_attrs w)
  | ORelationship r => r < length (w_rels w)
  | OGenerator g => g < length (w_gens w)
  | ODependent g => g < length (w_dgens w)
  | OTimer t => t < length (w_tgens w)
  | OPopulation p => p < length (w_pops w)
  | OStory s => s < length (w_stories w)
  | OClock | OSeeder | OPopulationNames | OGeneratorNames => True
  end.

Definition happening_changes (w : world) (h : happening) (x : object) : Prop :=
  match h with
  | HExec a => story_changes w a x
  | HClock => x = OClock \/ exists t, In t (c_listeners (w_clock w)) /\ x = OTimer t
  | HForce a _ | HTransit a _ _ | HTick a _ => x = OStory a
  | HReset a _ => x = OStory a \/ timer_of w a x
  end.

Definition call_changes (w : world) (c : call) (x : object) : Prop :=
  match c with
  | CNewGen _ | CNewDepGen _ => False
  | CNewTimer _ registered => registered = true /\ x = OClock
  | CPopulation _ ids_gen _ _ => x = OPopulationNames \/ exists g, ids_gen = Some g /\ generator_of w g x
  | CRelationship p _ _ => x = OPopulation p \/ x = OSeeder
  | CStock p _ g _ | CStockGrouped p _ g => x = OPopulation p \/ x = OSeeder \/ generator_of w g x
  | CAttribute p _ _ g rel =>
      x = OPopulation p \/
      (exists g', g = Some g' /\ generator_of w g' x) \/
      exists po name r, nth_error (w_pops w) p = Some po /\ rel = Some name /\ dget name (p_rels po) = Some r /\ x = ORelationship r
  | CPopulationUpdate p _ => x = OPopulation p \/ attribute_of w p x
  | CSelectMember _ _ _ => x = OSeeder
  | CAttributeUpdate a _ | CAttributeAdd a _ _ | CAttributeTransform a _ => x = OAttribute a
  | CRelAdd r _ _ | CRelAddGrouped r _ _ | CRelAddWeighted r _ _ _ | CRelRemove r _ _
  | CRelSelectOne r _ _ _ _ _ | CRelSelectMany r _ _ _ => x = ORelationship r
  | CStory _ _ _ _ default states timer auto =>
      (auto = true /\ x = OTimer timer) \/
      exists st, (st = default \/ exists d name, states = Some d /\ In (name, st) d) /\
                 (generator_of w (fst st) x \/ generator_of w (snd st) x)
  | CSetOperations a _ | CAppendOperations a _ => x = OStory a
  | CAttachGenerator _ _ => x = OGeneratorNames
  | CGenerate g _ => generator_of w g x
  | CGenerateDependent g _ => dependent_of w g x
  | CTimers t _ => x = OTimer t
  | CNextSeed => x = OSeeder
  | CHappening h => happening_changes w h x
  end.

(** Happenings: what they look at, and what the caller sees of them. *)
Definition happening_uses (w : world) (h : happening) (x : object) : Prop :=
  match h with
  | HExec a => story_uses w a x
  | _ => happening_changes w h x
  end.

Definition outcome (h : happening) (w : world) : result logs :=
  match h with
  | HExec a => fst (execute a w)
  | _ => match fst (happen h w) with Ok _ => Ok [] | Err e => Err e end
  end.

(** What those of the happenings selected by [mine] give. *)
Fixpoint outcomes (mine : happening -> bool) (w : world) (l : list happening) : list (result logs) :=
  match l with
  | [] => []
  | h :: l' => (if mine h then [outcome h w] else []) ++ outcomes mine (snd (happen h w)) l'
  end.
