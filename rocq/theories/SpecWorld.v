(** Circuses a user can build: every call of the library a user may make on a circus, and
    the worlds reached by such calls, whether or not some of them raised. *)
From Verif Require Import Base Rng Relationship Frame Gens Clock Attribute World Story Ops Fs Circus SpecStory.
From Coq Require Import Permutation.

Inductive call :=
| CNewGen (g : gen)                       (* a generator object is created *)
| CNewDepGen (g : dgen)
| CNewTimer (t : tgen) (registered : bool)  (* a timer generator, listening to the clock or not *)
| CPopulation (name : string) (ids_gen : option nat) (size : option Z) (ids : option (list val))
| CRelationship (p : nat) (name : string) (seed : option N)
| CStock (p : nat) (name : string) (items : nat) (n : Z)
| CStockGrouped (p : nat) (name : string) (bulks : nat)
| CAttribute (p : nat) (name : string) (values : option init_vals) (g : option nat) (rel : option string)
| CPopulationUpdate (p : nat) (d : df)
| CSelectMember (p : nat) (named_as : string) (weight : option string)
| CAttributeUpdate (a : nat) (s : series)
| CRelAdd (r : nat) (froms tos : list val)
| CRelAddGrouped (r : nat) (froms : list val) (items : list (list val))
| CRelAddWeighted (r : nat) (froms tos : list val) (weights : weights_arg)
| CRelRemove (r : nat) (froms tos : list val)
| CRelSelectOne (r : nat) (froms : option (list (val * val))) (pop discard one_to_one : bool)
    (weights : option (dict val Q))
| CRelSelectMany (r : nat) (reqs : list req) (pop discard : bool)
| CAttributeAdd (a : nat) (ids added : list val)
| CAttributeTransform (a : nat) (f : val -> result val)
| CStory (order : list string -> list string) (name : string) (p : nat) (field : string)
    (default : state_gens) (states : option (dict string state_gens)) (timer : nat) (auto : bool)
| CSetOperations (a : nat) (ops : list op)
| CAppendOperations (a : nat) (ops : list op)
| CAttachGenerator (id : string) (g : nat)
| CGenerate (g : nat) (n : Z)                  (* generator.generate(n) *)
| CGenerateDependent (g : nat) (obs : list val)  (* dependent_generator.generate(obs) *)
| CTimers (t : nat) (activities : list (val * Q))  (* timer_generator.generate(activities) *)
| CNextSeed                                    (* next(circus.seeder) *)
| CHappening (h : happening).

Definition ignore {A} (m : M A) (w : world) : world := snd (m w).

(** A call on one relationship or one attribute; nothing is stored if it raises. *)
Definition on_rel (r : nat) (f : relationship -> result relationship) (w : world) : world :=
  match nth_error (w_rels w) r with
  | Some rel => match f rel with Ok rel' => set_rels (set_nth r rel' (w_rels w)) w | Err _ => w end
  | None => w
  end.
Definition on_attr (a : nat) (f : series -> result series) (w : world) : world :=
  match nth_error (w_attrs w) a with
  | Some t => match f t with Ok t' => set_attrs (set_nth a t' (w_attrs w)) w | Err _ => w end
  | None => w
  end.

Definition on_dependent (g : nat) (obs : list val) (w : world) : world :=
  match nth_error (w_dgens w) g with
  | Some d => match dgen_generate (w_gens w) d obs with
              | Ok (_, d', gens) => set_dgens (set_nth g d' (w_dgens w)) (set_gens gens w)
              | Err _ => w
              end
  | None => w
  end.
Definition on_timer (t : nat) (obs : list (val * Q)) (w : world) : world :=
  match nth_error (w_tgens w) t with
  | Some y => match tgen_generate y obs with
              | Ok (_, y') => set_tgens (set_nth t y' (w_tgens w)) w
              | Err _ => w
              end
  | None => w
  end.

Definition after_call (c : call) : world -> world :=
  match c with
  | CNewGen g => fun w => set_gens (w_gens w ++ [g]) w
  | CNewDepGen g => fun w => set_dgens (w_dgens w ++ [g]) w
  | CNewTimer t b => fun w =>
      let w1 := set_tgens (w_tgens w ++ [t]) w in
      if b then set_clock (register_listener (w_clock w) (length (w_tgens w))) w1 else w1
  | CPopulation n g s i => ignore (create_population n g s i)
  | CRelationship p n s => ignore (create_relationship p n s)
  | CStock p n g k => ignore (create_stock_relationship p n g k)
  | CStockGrouped p n g => ignore (create_stock_relationship_grp p n g)
  | CAttribute p n v g r => ignore (create_attribute p n v g r)
  | CPopulationUpdate p d => ignore (pop_update p d)
  | CSelectMember p n x => ignore (pop_select_one p n x)
  | CAttributeUpdate a s => ignore (update_attr a s)
  | CRelAdd r f t => ignore (rel_add r f t)
  | CRelAddGrouped r f t => ignore (rel_add_grouped r f t)
  | CRelAddWeighted r f t x => on_rel r (fun rel => add_relations rel f t x)
  | CRelRemove r f t => on_rel r (fun rel => remove_relations rel f t)
  | CRelSelectOne r f pop discard oto x => on_rel r (fun rel => rmap snd (select_one rel f pop discard oto x))
  | CRelSelectMany r reqs pop discard => on_rel r (fun rel => rmap snd (select_many rel reqs pop discard))
  | CAttributeAdd a ids added => on_attr a (fun t => attr_add t ids added)
  | CAttributeTransform a f => on_attr a (fun t => attr_transform t f)
  | CStory o n p f d s t b => ignore (create_story o n p f d s t b)
  | CSetOperations a ops => ignore (set_operations a ops)
  | CAppendOperations a ops => ignore (append_operations a ops)
  | CAttachGenerator i g => ignore (attach_generator i g)
  | CGenerate g n => ignore (generate g n)
  | CGenerateDependent g obs => on_dependent g obs
  | CTimers t obs => on_timer t obs
  | CNextSeed => ignore next_of_seeder
  | CHappening h => fun w => snd (happen h w)
  end.

(** The iteration order of a dictionary lists its keys. *)
Definition proper (c : call) : Prop :=
  match c with CStory order _ _ _ _ _ _ _ => forall l, Permutation (order l) l | _ => True end.

Inductive built (g : prng) : world -> Prop :=
| built_new seed start step : built g (new_circus g seed start step)
| built_call c w : proper c -> built g w -> built g (after_call c w).
