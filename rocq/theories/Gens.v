(** Model of /repo/trumania/core/random_generators.py.
    Generators live in a heap (list) and refer to each other by address. *)
From Verif Require Import Base BaseFacts Rng Utils Frame.

(** random_generators.py:15-23 seed_provider: state.randint(1, 2**31 - 1), i.e.
    1 <= seed < 2**31 - 1. *)
Definition max_int_32 : N := 2147483647%N.
Definition next_seed (state : rng) : N * rng :=
  let (x, st) := next_raw state in ((1 + x mod (max_int_32 - 1))%N, st).

(** The numpy methods a NumpyRandomGenerator may wrap.  [NpOther f] stands for
    any other distribution: [f] maps a raw draw to a value. *)
Inductive np_method :=
| NpUniform
| NpChoice (a : list val) (p : option (list (option Q)))
| NpOther (f : N -> Qc).

(** random_generators.py:184-186 NumpyRandomGenerator.generate: a call of the
    numpy method with size=size on the given RandomState. *)
Definition np_generate (m : np_method) (size : Z) (st : rng) : result (list val * rng) :=
  if (size <? 0)%Z then Err ValueError
  else
    let n := Z.to_nat size in
    match m with
    | NpUniform => let (us, st') := draws uniform n st in Ok (map vq us, st')
    | NpChoice a None =>
        let! (idx, st') := choice (length a) n st in
        let! vs := take idx a in Ok (vs, st')
    | NpChoice a (Some p) =>
        let! (idx, st') := choice_p (length a) n p st in
        let! vs := take idx a in Ok (vs, st')
    | NpOther f => let (xs, st') := draws next_raw n st in Ok (map (fun x => VNum (f x)) xs, st')
    end.

(** int(v) of a float: truncation towards zero *)
Definition trunc_Q (q : Q) : Z := Z.quot (Qnum q) (Zpos (Qden q)).

(** A generator object.
    - [GConst], 144-150; [GFixed], 153-160;
    - [GNumpy], 163-233: [state] is the attribute self.state; [bound] is the
      RandomState self.numpy_method is bound to when it is not self.state
      (after load_from, which replaces self.state only);
    - [GPareto], 239-266 ([lomax] maps a raw draw to a Lomax value);
    - [GSeq], 269-318;
    - [GOracle], 324-338 and 393-407: FakerGenerator and MongoIdGenerator, any
      stream of values;
    - [GMsisdn], 341-390: [fresh k] is the RandomState built by the k-th call of
      generate from self.seed (the same one each time unless the seed is None);
    - [GMap], 49-74: a transformed parent, elementwise or vectorised;
    - [GBulk], 76-90 and 526-540: parent.flatmap(DependentBulkGenerator(elem)). *)
Inductive gen_map :=
| MapElem (f : val -> result val)
| MapVect (f : list val -> result (list val)).

Inductive gen :=
| GConst (v : val)
| GFixed (vs : list val)
| GNumpy (m : np_method) (state : rng) (bound : option rng)
| GPareto (xmin : Qc) (force_int : bool) (lomax : N -> Qc) (state : rng)
| GSeq (counter : Z) (prefix : string) (max_length : nat)
| GOracle (values : nat -> val) (calls : nat)
| GMsisdn (cc : string) (prefixes : list string) (width : nat) (fresh : nat -> rng) (calls : nat)
          (available : list (Z * nat))
| GMap (parent : nat) (f : gen_map)
| GBulk (parent elem : nat).

(** random_generators.py:346-367 MSISDNGenerator.__init__: numbers
    0 .. 10**length - 2 for each prefix position. *)
Definition msisdn_pool (n_prefixes width : nat) : list (Z * nat) :=
  flat_map (fun i => map (fun k => (Z.of_nat k, i)) (seq 0 (10 ^ width - 1))) (seq 0 n_prefixes).
Definition new_msisdn (cc : string) (prefixes : list string) (width : nat) (fresh : nat -> rng) : gen :=
  GMsisdn cc prefixes width fresh 0 (msisdn_pool (length prefixes) width).

(** random_generators.py:382-385 *)
Definition msisdn_str (cc : string) (prefixes : list string) (width : nat) (e : Z * nat) : val :=
  VStr (cc ++ nth (snd e) prefixes "" ++ zfill width (str_of_Z (fst e)))%string.

(** heap access *)
Fixpoint set_nth {A} (i : nat) (x : A) (l : list A) : list A :=
  match l, i with
  | [], _ => []
  | _ :: l', 0 => x :: l'
  | y :: l', S i' => y :: set_nth i' x l'
  end.

(** One generate(size=size) on a generator that refers to no other one.  The
    size is an int (it may be negative). *)
Definition gen_step (g : gen) (size : Z) : result (list val * gen) :=
  match g with
  | GConst v => Ok (repeat v (Z.to_nat size), g)
  | GFixed vs => if (Z.of_nat (length vs) =? size)%Z then Ok (vs, g) else Err AssertionError
  | GNumpy m state bound =>
      match bound with
      | None => let! (vs, st) := np_generate m size state in Ok (vs, GNumpy m st None)
      | Some b => let! (vs, st) := np_generate m size b in Ok (vs, GNumpy m state (Some st))
      end
  | GPareto xmin force_int lomax state =>
      if (size <? 0)%Z then Err ValueError
      else
        let (xs, st) := draws next_raw (Z.to_nat size) state in
        let values := map (fun x => (lomax x + 1) * xmin)%Qc xs in
        Ok (map (fun v => if force_int then vz (trunc_Q (this v)) else VNum v) values,
            GPareto xmin force_int lomax st)
  | GSeq counter prefix max_length =>
      Ok (map VStr (build_ids size counter prefix max_length),
          GSeq (counter + size) prefix max_length)
  | GOracle values calls =>
      Ok (map values (seq calls (Z.to_nat size)), GOracle values (calls + Z.to_nat size))
  | GMsisdn cc prefixes width fresh calls available =>
      if (size <? 0)%Z then Err ValueError
      else
        let! (idx, _) := choice_norep (length available) (Z.to_nat size) (fresh calls) in
        let! entries := take idx available in
        Ok (map (msisdn_str cc prefixes width) entries,
            GMsisdn cc prefixes width fresh (S calls) (np_delete idx available))
  | GMap _ _ | GBulk _ _ => Err Unmodelled
  end.

(** A sequence of generate calls threading the heap. *)
Fixpoint heap_calls {H : Type} (call : H -> Z -> result (list val * H)) (h : H) (sizes : list Z)
  : result (list (list val) * H) :=
  match sizes with
  | [] => Ok ([], h)
  | n :: sizes' =>
      let! (vs, h1) := call h n in
      let! (vss, h2) := heap_calls call h1 sizes' in
      Ok (vs :: vss, h2)
  end.

(** generate(size=size) on the generator at address [i].  A transformed
    generator is created after its parents, so its address is larger: [fuel] =
    S i always suffices; other references are not modelled. *)
Fixpoint heap_generate (fuel : nat) (h : list gen) (i : nat) (size : Z)
  : result (list val * list gen) :=
  match fuel with
  | 0 => Err Unmodelled
  | S fuel' =>
      match nth_error h i with
      | None => Err Unmodelled
      | Some (GMap parent f) =>
          if parent <? i then
            let! (samples, h') := heap_generate fuel' h parent size in
            let! vs := match f with
                       | MapElem f => mapr f samples
                       | MapVect f => f samples
                       end in
            Ok (vs, h')
          else Err Unmodelled
      | Some (GBulk parent elem) =>
          if (parent <? i) && (elem <? i) then
            let! (samples, h') := heap_generate fuel' h parent size in
            let! ns := mapr as_int samples in
            let! (vss, h'') := heap_calls (fun h n => heap_generate fuel' h elem n) h' ns in
            Ok (map VList vss, h'')
          else Err Unmodelled
      | Some g => let! (vs, g') := gen_step g size in Ok (vs, set_nth i g' h)
      end
  end.

Definition gen_generate (h : list gen) (i : nat) (size : Z) : result (list val * list gen) :=
  heap_generate (S i) h i size.

(** ** Dependent generators (random_generators.py:410-540)
    - [DConst], 474-486;
    - [DTrigger], 489-523: [proba] is value_to_proba_mapper, applied elementwise;
    - [DBulk], 526-540. *)
Inductive dgen :=
| DConst (v : val)
| DTrigger (proba : val -> result Q) (base_line : rng)
| DBulk (elem : nat).

(** generate(observations=...).values *)
Definition dgen_generate (h : list gen) (d : dgen) (obs : list val)
  : result (list val * dgen * list gen) :=
  match d with
  | DConst v => Ok (map (fun _ => v) obs, d, h)
  | DTrigger proba base_line =>
      let (us, st) := draws uniform (length obs) base_line in
      let! ps := mapr proba obs in
      Ok (map (fun '(u, p) => VBool (Qltb u p)) (combine us ps), DTrigger proba st, h)
  | DBulk elem =>
      let! ns := mapr as_int obs in
      let! (vss, h') := heap_calls (fun h n => gen_generate h elem n) h ns in
      Ok (map VList vss, d, h')
  end.

(** random_generators.py:121-137 RandomValues.build_output, the values only.
    With a quantity field the generated stream is cut into consecutive lists;
    islice refuses negative sizes (ValueError). *)
Definition random_values (h : list gen) (i : nat) (n_rows : nat) (qties : option (list val))
  : result (list val * list gen) :=
  match qties with
  | None => gen_generate h i (Z.of_nat n_rows)
  | Some qs =>
      let! ns := mapr as_int qs in
      let! (flat_vals, h') := gen_generate h i (zsum ns) in
      if existsb (fun n => n <? 0)%Z ns then Err ValueError
      else Ok (map VList (slices (map Z.to_nat ns) flat_vals), h')
  end.
