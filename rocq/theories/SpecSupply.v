(** Specification vocabulary for stocks: relationships whose items are moved between members, and
    stories that only create items, move them and store them. *)
From Verif Require Import Base Rng Relationship SpecRelationship Frame Gens Clock Attribute World Story Ops Helpers Circus SpecStory SpecOps SpecLocal.
From Coq Require Import Permutation.

(** The items of one stock, with repetitions, and those of all the stocks [S]. *)
Definition items_of (r : relationship) : list val := map (fun x => snd (fst x)) (stored r).
Definition held (S : list nat) (w : world) : list val :=
  flat_map (fun r => match nth_error (w_rels w) r with Some rel => items_of rel | None => [] end) S.

(** Generators of identifiers. *)
Definition makes_ids (G : gen) : Prop :=
  (exists k prefix width, G = GSeq k prefix width) \/
  (exists cc prefixes width fresh calls available, G = GMsisdn cc prefixes width fresh calls available).

(** Between [w] and [w'], the generator [g] was called with these sizes, one call after the other, and
    gave these items. *)
Definition drawn (w w' : world) (g : nat) (sizes : list Z) (items : list val) : Prop :=
  exists G G' vss, nth_error (w_gens w) g = Some G /\ nth_error (w_gens w') g = Some G' /\
    heap_calls gen_step G sizes = Ok (vss, G') /\ concat vss = items.

(** The stocks exist and are as the library builds them, no item is missing (NaN); the items are made
    by a generator of identifiers. *)
Definition stocked (w : world) (S : list nat) (g : nat) : Prop :=
  NoDup S /\
  (forall r, In r S -> exists rel, nth_error (w_rels w) r = Some rel /\ reachable rel) /\
  ~ In VNA (held S w) /\
  exists G, nth_error (w_gens w) g = Some G /\ makes_ids G.

(** What the rows of the story data carry at some point of the story: nothing; an item each, in a
    column; a list of items each; or an item each unless it is missing, which another column may tell. *)
Inductive cargo :=
| Nothing
| One (c : string)
| Many (c : string)
| Perhaps (c : string) (missing : option string).

Definition aboard (t : cargo) (d : df) : list val :=
  match t with
  | Nothing => []
  | One c => column_of d c
  | Many c => flat_map list_of (column_of d c)
  | Perhaps c _ => filter (fun v => negb (is_na v)) (column_of d c)
  end.

(** pandas.isnull on one column. *)
Definition isnull (columns : list (list val)) : list val := map (fun v => VBool (is_na v)) (hd [] columns).

(** [o] adds the columns [new] to the story data, whatever the data. *)
Definition adds (o : op) (new : list string) : Prop :=
  match o with
  | OpApply sources named f =>
      new = named /\ forall d out, df_cols d = sources -> f d = Ok out -> rectangular out /\ length (df_cols out) = length named
  | OpFieldLogger _ _ _ | OpDropRow _ => new = []
  | OpSelectAll _ _ _ | OpChain _ => False
  | _ => if only_side_effect o then new = [] else target_columns o new
  end.

(** [o] changes neither the stocks nor the generator of items. *)
Definition hands_off (w : world) (S : list nat) (g : nat) (o : op) : Prop :=
  (forall r, In r S -> ~ changes w o (ORelationship r)) /\ ~ changes w o (OGenerator g).

Section Moves.
  Context (w : world) (S : list nat) (g : nat) (strict : bool).

  (** With the columns [cols] and the cargo [t], the story may go on with [o]; the columns and the cargo
      after it.  [strict]: the cargo may not be thrown away. *)
  Inductive carries : list string -> cargo -> op -> list string -> cargo -> Prop :=
  | carry_on cols t o new :
      hands_off w S g o -> adds o new -> NoDup new -> (forall c, In c new -> ~ In c cols) ->
      t = Nothing \/ drops_rows o = false \/ strict = false ->
      carries cols t o (cols ++ new) t
  | buy cols t r f c discard weights :
      In r S -> ~ In c cols -> t = Nothing \/ strict = false ->
      carries cols t (OpSelectOne r f c true true discard weights) (cols ++ [c])
              (if discard then One c else Perhaps c None)
  | check_missing cols c b :
      ~ In b cols ->
      carries cols (Perhaps c None) (OpApply [c] [b] (series_f isnull)) (cols ++ [b]) (Perhaps c (Some b))
  | drop_missing cols c b :
      carries cols (Perhaps c (Some b)) (OpDropRow b) cols (One c)
  | make_one cols t c :
      ~ In c cols -> t = Nothing \/ strict = false ->
      carries cols t (OpGenerate g c None) (cols ++ [c]) (One c)
  | make_lists cols t c quantity :
      ~ In c cols -> t = Nothing \/ strict = false ->
      carries cols t (OpGenerate g c (Some quantity)) (cols ++ [c]) (Many c)
  | make_bulks cols t k c observed :
      nth_error (w_dgens w) k = Some (DBulk g) -> ~ In c cols -> t = Nothing \/ strict = false ->
      carries cols t (OpGenerateDep k c observed) (cols ++ [c]) (Many c)
  | make_flatmap cols t k p c :
      nth_error (w_gens w) k = Some (GBulk p g) -> ~ built_from (w_gens w) p g ->
      ~ In c cols -> t = Nothing \/ strict = false ->
      carries cols t (OpGenerate k c None) (cols ++ [c]) (Many c)
  | store_one cols r f c :
      In r S -> carries cols (One c) (OpRelAdd r f c) cols Nothing
  | store_many cols r f c :
      In r S -> carries cols (Many c) (OpRelAddGrouped r f c) cols Nothing.

  Inductive moves : list string -> cargo -> list op -> Prop :=
  | arrived cols t : t = Nothing \/ strict = false -> moves cols t []
  | moves_on cols t o cols' t' ops : carries cols t o cols' t' -> moves cols' t' ops -> moves cols t (o :: ops).
End Moves.

(** Every story of the circus only makes, buys and stores items, or leaves them alone. *)
Definition supply_chain (strict : bool) (w : world) (S : list nat) (g : nat) : Prop :=
  stocked w S g /\
  forall a s, nth_error (w_stories w) a = Some s -> moves w S g strict [st_field s] Nothing (st_ops s).

(** Operations that call a generator with sizes taken from data. *)
Definition data_sized (w : world) (o : op) : Prop :=
  match o with
  | OpGenerateDep k _ _ => exists e, nth_error (w_dgens w) k = Some (DBulk e)
  | OpGenerate k _ _ => exists p e, nth_error (w_gens w) k = Some (GBulk p e)
  | _ => False
  end.
Definition fixed_sizes (w : world) : Prop :=
  forall a s o, nth_error (w_stories w) a = Some s -> In o (st_ops s) -> ~ data_sized w o.

(** Every item held was given once by the generator [g], which started as [G0]. *)
Definition all_made (w : world) (S : list nat) (g : nat) (G0 : gen) : Prop :=
  NoDup (held S w) /\
  exists sizes vss G, nth_error (w_gens w) g = Some G /\ heap_calls gen_step G0 sizes = Ok (vss, G) /\
    Forall (fun n => 0 <= n)%Z sizes /\ incl (held S w) (concat vss).

(** A new generator of identifiers. *)
Definition new_ids (G : gen) : Prop :=
  (exists start prefix width, G = GSeq start prefix width) \/
  (exists cc prefixes width fresh, G = new_msisdn cc prefixes width fresh /\ NoDup prefixes /\ width <> 0).
