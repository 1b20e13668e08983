(** Specification vocabulary for ledgers: reading off the logs what happened to a stock or to an account. *)
From Verif Require Import Base Rng Relationship SpecRelationship Frame Gens Clock Attribute SpecAttribute World Story Ops Circus SpecStory SpecOps SpecCircus
  SpecPopulation SpecLocal SpecSupply Fs SpecFs.

(** A log in which one column tells who, another one what. *)
Record book := Book { log_of : string; who : string; what : string }.

(** The (who, what) pairs found in the log, in order. *)
Definition entries (b : book) (L : logs) : list (val * val) :=
  flat_map (fun d => listed d (who b) (what b)) (frames_of (log_of b) L).

(** The same pairs, read from the log file: the first line tells the names of the columns. *)
Definition name_of (v : val) : string := match v with VStr s => s | _ => EmptyString end.
Definition in_file (fs : node lines) (folder : path) (b : book) : list (val * val) :=
  match see fs (folder ++ [(log_of b ++ ".csv")%string]) with
  | AFile (header :: rows) =>
      map (fun row => (cell (map name_of header) row (who b), cell (map name_of header) row (what b))) rows
  | _ => []
  end.

(** All the loggers of the book list the same columns. *)
Definition one_format (w : world) (b : book) : Prop := exists cols, cols <> [] /\ loggers_agree w (log_of b) cols.

(** Pairs whose second part is not missing; lists unpacked. *)
Definition actual (l : list (val * val)) : list (val * val) := filter (fun x => negb (is_na (snd x))) l.
Definition unpacked (l : list (val * val)) : list (val * val) := flat_map (fun x => map (pair (fst x)) (list_of (snd x))) l.

(** The (member, item) pairs of relationship [r], each as often as it is stored. *)
Definition pairs_of (w : world) (r : nat) : list (val * val) :=
  match nth_error (w_rels w) r with Some rel => map fst (stored rel) | None => [] end.

(** [o] changes neither the object [x] nor writes in the books. *)
Definition apart (w : world) (x : object) (books : list book) (o : op) : Prop :=
  ~ changes w o x /\ forall b cols ex, In b books -> ~ part_of (OpFieldLogger (log_of b) cols ex) o.

(** Starting with the columns [cols], the operations only add columns, with new names, and end with the
    columns [cols']; they keep every row unless [dropping]. *)
Inductive widens (dropping : bool) : list string -> list op -> list string -> Prop :=
| widens_done cols : widens dropping cols [] cols
| widens_by cols o new ops cols' :
    adds o new -> NoDup new -> (forall c, In c new -> ~ In c cols) -> dropping = true \/ drops_rows o = false ->
    widens dropping (cols ++ new) ops cols' -> widens dropping cols (o :: ops) cols'.

(** A logger of the two columns of the book, and possibly others of [cols], or of all of them. *)
Definition writes (b : book) (cols : list string) (o : op) : Prop :=
  exists names, o = OpFieldLogger (log_of b) names [] /\
    (names = [] \/ In (who b) names /\ In (what b) names /\ incl names cols).

(** What a story has to do with the object [x]: nothing; or one operation, which [entered] allows for the
    book [b] where it adds the columns [new], then a logger of what the operation worked on. *)
Inductive keeps_books (w : world) (x : object) (books : list book) (entered : op -> list string -> book -> Prop) (s : story) : Prop :=
| nothing_to_enter : Forall (apart w x books) (st_ops s) -> keeps_books w x books entered s
| one_to_enter before o between log afterwards b cols new cols' :
    st_ops s = before ++ o :: between ++ log :: afterwards ->
    Forall (apart w x books) (before ++ between ++ afterwards) ->
    widens true [st_field s] before cols ->
    entered o new b -> In b books -> (forall c, In c new -> ~ In c cols) ->
    In (who b) (cols ++ new) -> In (what b) (cols ++ new) ->
    widens false (cols ++ new) between cols' ->
    writes b cols' log ->
    keeps_books w x books entered s.

(** ** Stocks.  Operations on relationship [r] and the book they belong to: a sale takes an item of the
    seller out of the relationship, a delivery puts one in, a bulk delivery several. *)
Inductive trade (r : nat) (sales deliveries bulk : book) : op -> list string -> book -> Prop :=
| a_sale discard weights :
    trade r sales deliveries bulk (OpSelectOne r (who sales) (what sales) true true discard weights) [what sales] sales
| a_delivery : trade r sales deliveries bulk (OpRelAdd r (who deliveries) (what deliveries)) [] deliveries
| a_bulk_delivery : trade r sales deliveries bulk (OpRelAddGrouped r (who bulk) (what bulk)) [] bulk.

Definition stock_books (w : world) (r : nat) (sales deliveries bulk : book) : Prop :=
  NoDup (map log_of [sales; deliveries; bulk]) /\
  (exists rel, nth_error (w_rels w) r = Some rel /\ reachable rel) /\
  forall a s, nth_error (w_stories w) a = Some s ->
    keeps_books w (ORelationship r) [sales; deliveries; bulk] (trade r sales deliveries bulk) s.

(** The pairs of one member. *)
Definition about (k : val) (l : list (val * val)) : list (val * val) := filter (fun x => val_eqb (fst x) k) l.

(** ** Accounts.  Operations on the attribute [a] and the book they belong to. *)
Inductive posting (a : nat) (credits debits : book) : op -> list string -> book -> Prop :=
| a_credit : posting a credits debits (OpAttrAdd a (who credits) (what credits) false) [] credits
| a_debit : posting a credits debits (OpAttrAdd a (who debits) (what debits) true) [] debits.

Definition account_books (w : world) (a : nat) (credits debits : book) : Prop :=
  log_of credits <> log_of debits /\ single_valued w a /\
  forall i s, nth_error (w_stories w) i = Some s ->
    keeps_books w (OAttribute a) [credits; debits] (posting a credits debits) s.
