(** Specification vocabulary for circuses whose runs never raise. *)
From Verif Require Import Base Rng Utils Relationship SpecRelationship Frame Gens Clock SpecClock Attribute SpecAttribute World Story Ops Helpers Circus SpecStory SpecOps
  SpecCircus SpecPopulation SpecLocal SpecSupply SpecLedger SpecRecords.

(** ** Generators that never refuse to generate *)
Inductive never_refuses (h : list gen) : nat -> Prop :=
| sure_const i v : nth_error h i = Some (GConst v) -> never_refuses h i
| sure_uniform i s b : nth_error h i = Some (GNumpy NpUniform s b) -> never_refuses h i
| sure_choice i a s b : nth_error h i = Some (GNumpy (NpChoice a None) s b) -> a <> [] -> never_refuses h i
| sure_weighted i a ps s b : nth_error h i = Some (GNumpy (NpChoice a (Some (map Some ps))) s b) -> length ps = length a ->
    (forall p, In p ps -> (0 <= p)%Q) -> (qsum ps == 1)%Q -> never_refuses h i
| sure_law i f s b : nth_error h i = Some (GNumpy (NpOther f) s b) -> never_refuses h i
| sure_pareto i xmin force_int lomax s : nth_error h i = Some (GPareto xmin force_int lomax s) -> never_refuses h i
| sure_ids i k prefix width : nth_error h i = Some (GSeq k prefix width) -> never_refuses h i
| sure_oracle i values k : nth_error h i = Some (GOracle values k) -> never_refuses h i
| sure_mapped i p f : nth_error h i = Some (GMap p (MapElem f)) -> p < i -> never_refuses h p ->
    (forall u, can_give h p u -> exists v, f u = Ok v) -> never_refuses h i
| sure_mapped_vector i p f : nth_error h i = Some (GMap p (MapVect f)) -> p < i -> never_refuses h p ->
    (forall us, Forall (can_give h p) us -> exists vs, f us = Ok vs /\ length vs = length us) -> never_refuses h i
| sure_bulk i p e : nth_error h i = Some (GBulk p e) -> p < i -> e < i -> never_refuses h p -> never_refuses h e ->
    (forall v, can_give h p v -> exists n, v = vnat n) -> never_refuses h i.

(** ** Relationships from which one can always select *)
Definition related_to (w : world) (r : nat) : Prop := exists rel, nth_error (w_rels w) r = Some rel.
Definition selectable (w : world) (r : nat) : Prop :=
  exists rel, nth_error (w_rels w) r = Some rel /\
    ((forall f t q, In (f, t, q) (stored rel) -> (0 < q)%Q) \/
     steady_relationship w r /\ (forall f t q, In (f, t, q) (stored rel) -> (0 <= q)%Q) /\
     forall f, 2 <= length (tos_stored rel f) -> exists t q, In (f, t, q) (stored rel) /\ (0 < q)%Q).

(** An attribute of numbers, which the stories only add to. *)
Definition account (w : world) (x : nat) : Prop :=
  (exists t, nth_error (w_attrs w) x = Some t /\ NoDup (map fst t) /\ forall k v, In (k, v) t -> numeric v) /\
  forall a s o o', nth_error (w_stories w) a = Some s -> In o (st_ops s) -> part_of o' o ->
    match o' with OpAttrUpdate _ _ _ | OpPopUpdate _ _ _ => ~ changes w o' (OAttribute x) | _ => True end.

(** The members of story [a]; its states. *)
Definition member_of (w : world) (a : nat) (i : val) : Prop := exists s, nth_error (w_stories w) a = Some s /\ In i (st_ids s).
Definition state_in (w : world) (a : nat) (st : string) : Prop := exists s, nth_error (w_stories w) a = Some s /\ In st (st_states s).
Definition story_in (w : world) (a : nat) : Prop := exists s, nth_error (w_stories w) a = Some s.

(** The values that members may have in the attributes, and those that a row may therefore show after looking
    one up. *)
Definition respects (kinds : nat -> val -> val -> Prop) (w : world) : Prop :=
  forall x t k v, nth_error (w_attrs w) x = Some t -> In (k, v) t -> kinds x k v.
Definition of_kind (kinds : nat -> val -> val -> Prop) (w : world) (o : op) (row : record) : Prop :=
  match o with
  | OpLookup p from select => forall attribute named po x, In (attribute, named) select ->
      nth_error (w_pops w) p = Some po -> dget attribute (p_attrs po) = Some x -> single_valued w x ->
      match row from with
      | VList ids => exists vs, row named = VList vs /\ Forall2 (kinds x) ids vs
      | k => kinds x k (row named)
      end
  | OpSelectMany _ _ named _ _ _ => exists l, row named = VList l
  | _ => True
  end.

(** ** Operations that do not raise on frames with the columns [cols] whose rows all satisfy [possible] *)
Definition is_flag (possible : record -> Prop) (condition : option string) : Prop :=
  match condition with None => True | Some c => forall row, possible row -> exists b, row c = VBool b end.

Definition safe_on (kinds : nat -> val -> val -> Prop) (w : world) (members : list val) (member : string) (cols : list string) (possible : record -> Prop) (o : op) : Prop :=
  match o with
  | OpFieldLogger _ names [] => incl names cols
  | OpDropRow c => forall row, possible row -> exists b, row c = VBool b
  | OpApply sources named g =>
      (exists n f, named = [n] /\ g = series_f f /\
        forall rows : list record, Forall possible rows -> length (f (map (fun c => map (fun row => row c) rows) sources)) = length rows) \/
      (forall d, df_cols d = sources -> NoDup (df_index d) -> (forall line, In line (df_rows d) -> exists row, possible row /\ snd line = map row sources) ->
        exists out, g d = Ok out /\ NoDup (df_cols out) /\ NoDup (df_index out))
  | OpTimestamp _ random _ => random = true -> (second <= Clock.c_step (w_clock w))%Z
  | OpGenerate g _ None => never_refuses (w_gens w) g
  | OpGenerate g _ (Some q) => never_refuses (w_gens w) g /\ forall row, possible row -> exists n, row q = vnat n
  | OpGenerateDep g _ observed =>
      match nth_error (w_dgens w) g with
      | Some (DConst _) => True
      | Some (DTrigger proba _) => forall row, possible row -> exists p, proba (row observed) = Ok p
      | Some (DBulk e) => never_refuses (w_gens w) e /\ forall row, possible row -> exists n, row observed = vnat n
      | None => False
      end
  | OpNeighbours r _ _ => related_to w r
  | OpSelectOne r _ named _ _ _ None => reserved named = false /\ selectable w r
  | OpSelectAll r _ named => reserved named = false /\ related_to w r
  | OpSelectMany r _ named q _ _ => reserved named = false /\ related_to w r /\ forall row, possible row -> exists n, row q = vnat n
  | OpRelAdd r from item => incl [from; item] cols /\ related_to w r
  | OpRelAddGrouped r from items => incl [from; items] cols /\ related_to w r /\ forall row, possible row -> exists l, row items = VList l
  | OpAttrUpdate x f copied => incl [f; copied] cols /\ single_valued w x /\
      (exists owner, forall row, possible row -> owner (row f) = row member) /\
      forall row, possible row -> kinds x (row f) (row copied)
  | OpAttrAdd x f added subtract => incl [f; added] cols /\ account w x /\
      ((forall k v, numeric v -> kinds x k v) \/
       subtract = false /\ (forall k v, kinds x k v -> exists q, v = VNum q) /\
       forall k u row q, kinds x k (VNum u) -> possible row -> row added = VNum q -> kinds x k (VNum (u + q)%Qc)) /\
      (forall row, possible row -> numeric (row added)) /\
      forall t row, nth_error (w_attrs w) x = Some t -> possible row -> row f = VNA \/ In (row f) (map fst t)
  | OpLookup p from select => forall attribute named, In (attribute, named) select ->
      exists po x t, nth_error (w_pops w) p = Some po /\ dget attribute (p_attrs po) = Some x /\ nth_error (w_attrs w) x = Some t /\ NoDup (map fst t) /\
        ((forall row, possible row -> In (row from) (map fst t) /\ forall l, row from <> VList l) \/
         (forall row, possible row -> exists l, row from = VList l /\ incl l (map fst t)))
  | OpPopUpdate p f copy => incl (f :: map snd copy) cols /\ NoDup (map fst copy) /\
      exists po, nth_error (w_pops w) p = Some po /\ (forall name, In name (map fst copy) <-> In name (map fst (p_attrs po))) /\
        forall name copied x, In (name, copied) copy -> dget name (p_attrs po) = Some x ->
          single_valued w x /\ forall row, possible row -> kinds x (row f) (row copied)
  | OpForce a f condition => In f cols /\ (forall c, condition = Some c -> In c cols) /\ story_in w a /\
      is_flag possible condition /\ forall row, possible row -> row f = VNA \/ member_of w a (row f)
  | OpReset a None => story_in w a /\ forall i, In i members -> member_of w a i
  | OpReset a (Some f) => In f cols /\ story_in w a /\ forall row, possible row -> row f = VNA \/ member_of w a (row f)
  | OpTransit a f state condition => In f cols /\ (forall c, condition = Some c -> In c cols) /\ story_in w a /\
      is_flag possible condition /\ (forall row, possible row -> row f = VNA \/ member_of w a (row f)) /\
      match state with
      | inr st => state_in w a st
      | inl field => In field cols /\ forall row, possible row -> row field = VNA \/ exists st, row field = VStr st /\ state_in w a st
      end
  | OpBack a judge => story_in w a /\ (forall i, In i members -> member_of w a i) /\
      never_refuses (w_gens w) judge /\ forall v, can_give (w_gens w) judge v -> exists q, v = VNum q
  | _ => False
  end.

(** ** Stories whose operations never raise: each one is given columns that exist, adds new ones, and does not
    raise on rows of which all that the operations before it tell is true. *)
Definition possible_row (kinds : nat -> val -> val -> Prop) (w : world) (s : story) (before : list op) (row : record) : Prop :=
  In (row (st_field s)) (st_ids s) /\ (exists date, Forall (fun o => tells w date o row) before) /\ Forall (fun o => of_kind kinds w o row) before.

Inductive safe_ops (kinds : nat -> val -> val -> Prop) (w : world) (s : story) : list op -> list string -> list op -> Prop :=
| safe_end before cols : safe_ops kinds w s before cols []
| safe_then before cols o new ops :
    adds o new \/ (exists r from named, o = OpSelectAll r from named /\ new = [named]) ->
    NoDup new -> (forall c, In c new -> ~ In c cols) -> incl (reads o) cols ->
    safe_on kinds w (st_ids s) (st_field s) cols (possible_row kinds w s before) o ->
    safe_ops kinds w s (before ++ [o]) (cols ++ new) ops -> safe_ops kinds w s before cols (o :: ops)
(* or the story takes from an account of its members what it has seen there, and leaves nothing *)
| safe_settle before cols x named ops p select attribute earlier later :
    before = earlier ++ OpLookup p (st_field s) select :: later -> In (attribute, named) select ->
    (exists po, nth_error (w_pops w) p = Some po /\ dget attribute (p_attrs po) = Some x) ->
    Forall (fun o => ~ changes w o (OAttribute x)) later ->
    account w x -> (forall k v, kinds x k v -> exists q, v = VNum q) -> (forall k, kinds x k (VNum (Q2Qc 0))) ->
    (forall t i, nth_error (w_attrs w) x = Some t -> In i (st_ids s) -> In i (map fst t) /\ forall l, i <> VList l) ->
    incl [st_field s; named] cols ->
    safe_ops kinds w s (before ++ [OpAttrAdd x (st_field s) named true]) cols ops ->
    safe_ops kinds w s before cols (OpAttrAdd x (st_field s) named true :: ops).

(** Members are distinct, are in declared states, and have parameters for all of them. *)
Definition scheduled (w : world) (s : story) : Prop :=
  NoDup (st_ids s) /\ In "default"%string (st_states s) /\
  (forall i st r, In (i, (st, r)) (st_timer s) -> In st (st_states s)) /\
  (forall i st p, In i (st_ids s) -> In st (st_states s) -> exists q, declared s p i st = Some q) /\
  exists g, nth_error (w_tgens w) (st_tgen s) = Some g.

Definition well_formed_with (kinds : nat -> val -> val -> Prop) (w : world) : Prop :=
  Forall reachable (w_rels w) /\ respects kinds w /\
  forall a s, nth_error (w_stories w) a = Some s -> scheduled w s /\ safe_ops kinds w s [] [st_field s] (st_ops s).

Definition well_formed (w : world) : Prop := exists kinds, well_formed_with kinds w.

(** What may happen: executions, the clock, and calls with known members and declared states. *)
Definition sensible (w : world) (h : happening) : Prop :=
  match h with
  | HExec a => story_in w a
  | HClock => True
  | HForce a ids | HTick a ids => story_in w a /\ forall i, In i ids -> member_of w a i
  | HReset a (Some ids) => story_in w a /\ NoDup ids /\ forall i, In i ids -> member_of w a i
  | HReset a None => story_in w a
  | HTransit a ids states => story_in w a /\ length ids = length states /\ (forall i, In i ids -> member_of w a i) /\ forall st, In st states -> state_in w a st
  end.
