(** Specification vocabulary for the records found in the logs and what they tell. *)
From Verif Require Import Base Rng Utils Relationship SpecRelationship Frame Gens Clock SpecClock Attribute World Story Ops Helpers Circus SpecStory SpecOps SpecCircus
  SpecPopulation SpecLocal SpecSupply Fs SpecFs SpecLedger.
From Coq Require Import Permutation.

(** A line of a log: what it shows under each column name (VNA if there is no such column). *)
Definition record := string -> val.
Definition records (id : string) (L : logs) : list record :=
  flat_map (fun d => map (fun row => cell (df_cols d) (snd row)) (df_rows d)) (frames_of id L).

(** The same, read from the log file. *)
Definition recorded (fs : node lines) (folder : path) (id : string) : list record :=
  match see fs (folder ++ [(id ++ ".csv")%string]) with
  | AFile (header :: rows) => map (fun row => cell (map name_of header) row) rows
  | _ => []
  end.

(** ** What a generator may give, whatever its state *)
Inductive can_give (h : list gen) : nat -> val -> Prop :=
| give_const i v : nth_error h i = Some (GConst v) -> can_give h i v
| give_fixed i vs v : nth_error h i = Some (GFixed vs) -> In v vs -> can_give h i v
| give_uniform i s b u : nth_error h i = Some (GNumpy NpUniform s b) -> (0 <= u < 1)%Q -> can_give h i (vq u)
| give_choice i a s b v : nth_error h i = Some (GNumpy (NpChoice a None) s b) -> In v a -> can_give h i v
| give_weighted i a ps s b j v q : nth_error h i = Some (GNumpy (NpChoice a (Some ps)) s b) ->
    nth_error a j = Some v -> nth_error ps j = Some (Some q) -> (0 < q)%Q -> can_give h i v
| give_law i f s b x : nth_error h i = Some (GNumpy (NpOther f) s b) -> can_give h i (VNum (f x))
| give_pareto i xmin lomax s x : nth_error h i = Some (GPareto xmin false lomax s) -> can_give h i (VNum ((lomax x + 1) * xmin))
| give_int_pareto i xmin lomax s x : nth_error h i = Some (GPareto xmin true lomax s) ->
    can_give h i (vz (trunc_Q (this ((lomax x + 1) * xmin))))
| give_id i k0 prefix width k : nth_error h i = Some (GSeq k0 prefix width) -> can_give h i (VStr (prefix ++ zfill width (str_of_Z k))%string)
| give_oracle i values k0 k : nth_error h i = Some (GOracle values k0) -> can_give h i (values k)
| give_number i cc prefixes width fresh calls pool k j : nth_error h i = Some (GMsisdn cc prefixes width fresh calls pool) ->
    can_give h i (VStr (cc ++ nth j prefixes "" ++ zfill width (str_of_Z k))%string)
| give_mapped i p f u v : nth_error h i = Some (GMap p (MapElem f)) -> can_give h p u -> f u = Ok v -> can_give h i v
| give_mapped_vector i p f us vs v : nth_error h i = Some (GMap p (MapVect f)) -> Forall (can_give h p) us -> f us = Ok vs -> In v vs ->
    can_give h i v
| give_bulk i p e n vs : nth_error h i = Some (GBulk p e) -> can_give h p n -> Forall (can_give h e) vs -> can_give h i (VList vs).

(** ** Objects no story changes *)

(** [o] puts items into the relationship [r] or takes some out. *)
Definition moves_items (r : nat) (o : op) : Prop :=
  match o with
  | OpSelectOne r' _ _ _ pop _ _ | OpSelectMany r' _ _ _ pop _ => r' = r /\ pop = true
  | OpRelAdd r' _ _ | OpRelAddGrouped r' _ _ => r' = r
  | _ => False
  end.
Definition steady_relationship (w : world) (r : nat) : Prop :=
  forall a s o o', nth_error (w_stories w) a = Some s -> In o (st_ops s) -> part_of o' o -> ~ moves_items r o'.
Definition steady_attribute (w : world) (x : nat) : Prop :=
  forall a s o, nth_error (w_stories w) a = Some s -> In o (st_ops s) -> ~ changes w o (OAttribute x).

(** The items of one member. *)
Definition items (w : world) (r : nat) (k : val) : list val := map snd (about k (pairs_of w r)).

(** [f], given columns, computes [k] row by row. *)
Definition by_rows (sources : list string) (f : list (list val) -> list val) (k : list val -> val) : Prop :=
  forall rows : list record, f (map (fun c => map (fun row => row c) rows) sources) = map (fun row => k (map row sources)) rows.

(** [g], given frames with the columns [sources], computes the cells [k] of the [n] columns of its result row
    by row. *)
Definition row_by_row (sources : list string) (n : nat) (g : df -> result df) (k : list val -> list val) : Prop :=
  forall src out, df_cols src = sources -> g src = Ok out ->
    length (df_cols out) = n /\ df_rows out = map (fun row => (fst row, k (snd row))) (df_rows src) /\
    forall row, In row (df_rows src) -> length (k (snd row)) = n.

(** ** What an operation run at [date] tells of a row that comes out of it, as far as the relationships
    [still_r] and the attributes [still_a] are what they are in [w] *)
Definition tells_given (still_r still_a : nat -> Prop) (w : world) (date : Z) (o : op) (row : record) : Prop :=
  match o with
  | OpDropRow c => row c = VBool false
  | OpApply sources named g =>
      match named with
      | [n] => forall f k, g = series_f f -> by_rows sources f k -> row n = k (map row sources)
      | _ => True
      end /\
      forall k, row_by_row sources (length named) g k -> map row named = k (map row sources)
  | OpTimestamp named random fmt =>
      exists t, row named = fmt t /\ if random then (date <= t < date + Clock.c_step (w_clock w))%Z else t = date
  | OpGenerate g named None => can_give (w_gens w) g (row named)
  | OpGenerate g named (Some _) => exists vs, row named = VList vs /\ Forall (can_give (w_gens w) g) vs
  | OpGenerateDep g named observed =>
      match nth_error (w_dgens w) g with
      | Some (DConst v) => row named = v
      | Some (DTrigger proba _) => exists p b, proba (row observed) = Ok p /\ row named = VBool b /\
                                     ((p <= 0)%Q -> b = false) /\ ((1 <= p)%Q -> b = true)
      | Some (DBulk e) => exists vs, row named = VList vs /\ Forall (can_give (w_gens w) e) vs
      | None => False
      end
  | OpNeighbours r from named => still_r r -> row named = vnat (length (items w r (row from)))
  | OpSelectOne r from named _ _ discard _ => still_r r ->
      In (row named) (items w r (row from)) \/ discard = false /\ row named = VNA /\ items w r (row from) = []
  | OpSelectMany r from named quantity _ _ => still_r r ->
      exists ts n others, row named = VList ts /\ row quantity = vnat n /\ length ts <= n /\
        Permutation (items w r (row from)) (ts ++ others)
  | OpSelectAll r from named => still_r r -> (forall rel, nth_error (w_rels w) r = Some rel -> homogeneous rel) ->
      exists ts, row named = VList ts /\ ts <> [] /\ Permutation (items w r (row from)) ts
  | OpLookup p from select => forall attribute named po x t, In (attribute, named) select ->
      nth_error (w_pops w) p = Some po -> dget attribute (p_attrs po) = Some x -> nth_error (w_attrs w) x = Some t ->
      still_a x -> looked_up t (row from) (row named)
  | _ => True
  end.

(** What is told of relationships and attributes no story changes. *)
Definition tells (w : world) : Z -> op -> record -> Prop := tells_given (steady_relationship w) (steady_attribute w) w.

(** ** Stories whose operations give new names to the columns they add, and use existing ones *)
Definition reads (o : op) : list string :=
  match o with
  | OpDropRow c => [c]
  | OpApply sources _ _ => sources
  | OpGenerate _ _ (Some q) => [q]
  | OpGenerateDep _ _ observed => [observed]
  | OpNeighbours _ from _ | OpSelectOne _ from _ _ _ _ _ | OpSelectAll _ from _ | OpLookup _ from _ => [from]
  | OpSelectMany _ from _ quantity _ _ => [from; quantity]
  | _ => []
  end.
Inductive builds_up : list string -> list op -> list string -> Prop :=
| built_up cols : builds_up cols [] cols
| builds_by cols o new ops cols' :
    adds o new \/ (exists r from named, o = OpSelectAll r from named /\ new = [named]) ->
    NoDup new -> (forall c, In c new -> ~ In c cols) -> incl (reads o) cols ->
    builds_up (cols ++ new) ops cols' -> builds_up cols (o :: ops) cols'.

(** Every story is such a story, or does not log under [id]. *)
Definition tidy (w : world) (id : string) : Prop :=
  forall a s, nth_error (w_stories w) a = Some s ->
    (exists cols, builds_up [st_field s] (st_ops s) cols) \/
    (forall o c ex, In o (st_ops s) -> ~ part_of (OpFieldLogger id c ex) o).

(** The record was logged under [id] by the story [a] at [date]: it shows columns of a row of the story, of
    which all that the operations before the logger tell is true, and which starts with a member that [acts];
    for exploded columns it shows the [k]-th elements of the lists. *)
Definition told (w : world) (id : string) (a : nat) (date : Z) (acts : val -> Prop) (r : record) : Prop :=
  exists s before names ex afterwards row k,
    nth_error (w_stories w) a = Some s /\ st_ops s = before ++ OpFieldLogger id names ex :: afterwards /\
    (forall c, names = [] \/ In c names -> r c = if mem c ex then nth k (list_of (row c)) VNA else row c) /\
    (forall c, In c ex -> k < length (list_of (row c))) /\
    Forall (fun o => tells w date o row) before /\ acts (row (st_field s)).

(** The record was logged during the history [hs], right after [past]: a story was executed then, and the
    record tells what is true of it. *)
Definition logged_after (w : world) (id : string) (hs past : list happening) (r : record) : Prop :=
  exists a future L1 w1, hs = past ++ HExec a :: future /\ emits w past L1 w1 /\
    told w id a (c_date (w_clock w1)) (acts_now w1 a) r.

(** How often the clock moved. *)
Definition ticks (hs : list happening) : nat := length (filter (fun h => match h with HClock => true | _ => false end) hs).
Definition earlier (p q : list happening) : Prop := length p <= length q.

(** Every logger of [id] shows the column [c], filled before by a timestamp operation. *)
Definition timestamped (w : world) (id c : string) (random : bool) (fmt : Z -> val) : Prop :=
  forall a s before names ex afterwards, nth_error (w_stories w) a = Some s -> st_ops s = before ++ OpFieldLogger id names ex :: afterwards ->
    In (OpTimestamp c random fmt) before /\ (names = [] \/ In c names) /\ ~ In c ex.

(** The members that act in story [a] during a history, in order, as often as they act. *)
Fixpoint acted (a : nat) (w : world) (hs : list happening) : list val :=
  match hs with
  | [] => []
  | h :: hs =>
      match h with
      | HExec b => if Nat.eqb b a then match nth_error (w_stories w) a with Some s => due_members s | None => [] end else []
      | _ => []
      end ++ acted a (snd (happen h w)) hs
  end.

(** Operations that keep every row. *)
Definition keeps_rows (o : op) : bool :=
  match o with
  | OpSelectOne _ _ _ one_to_one _ discard _ => negb one_to_one && negb discard
  | OpSelectMany _ _ _ _ _ discard => negb discard
  | _ => negb (drops_rows o)
  end.

(** Only the story [a] logs under [id]: once, before any row is dropped, and it shows the member. *)
Definition one_record_per_act (w : world) (id : string) (a : nat) (member : string) : Prop :=
  (exists s before names afterwards cols,
     nth_error (w_stories w) a = Some s /\ member = st_field s /\ st_ops s = before ++ OpFieldLogger id names [] :: afterwards /\
     builds_up [st_field s] before cols /\ Forall (fun o => keeps_rows o = true) before /\ (names = [] \/ In (st_field s) names) /\
     forall o c ex, In o (before ++ afterwards) -> ~ part_of (OpFieldLogger id c ex) o) /\
  forall b s o c ex, b <> a -> nth_error (w_stories w) b = Some s -> In o (st_ops s) -> ~ part_of (OpFieldLogger id c ex) o.

(** All the lines of the log file have the columns [cols]: all the loggers list them, or each story that
    logs under [id] does it once, showing all its columns, which are then [cols]. *)
Definition one_header (w : world) (id : string) (cols : list string) : Prop :=
  cols <> [] /\ loggers_agree w id cols \/
  forall a s, nth_error (w_stories w) a = Some s ->
    (forall o c ex, In o (st_ops s) -> ~ part_of (OpFieldLogger id c ex) o) \/
    exists before afterwards, st_ops s = before ++ OpFieldLogger id [] [] :: afterwards /\ builds_up [st_field s] before cols /\
      forall o c ex, In o (before ++ afterwards) -> ~ part_of (OpFieldLogger id c ex) o.
