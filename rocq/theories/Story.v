(** Model of /repo/trumania/core/story.py: timers, states and parameters of a
    story.  (The operations StoryOps and execute, which run operations, are in
    Ops.v.) *)
From Verif Require Import Base BaseFacts Rng Utils Relationship Frame Gens Clock Attribute World.

Definition with_timer (s : story) (t : list (val * (string * option Z))) : story :=
  mkStory (st_name s) (st_pop s) (st_field s) (st_tgen s) (st_auto s) (st_forced s)
          (st_states s) (st_params s) t (st_ops s).
Definition with_forced (s : story) (f : list val) : story :=
  mkStory (st_name s) (st_pop s) (st_field s) (st_tgen s) (st_auto s) f
          (st_states s) (st_params s) (st_timer s) (st_ops s).
Definition with_ops (s : story) (o : list op) : story :=
  mkStory (st_name s) (st_pop s) (st_field s) (st_tgen s) (st_auto s) (st_forced s)
          (st_states s) (st_params s) (st_timer s) o.

(** the ids the story knows: self.timer.index *)
Definition st_ids (s : story) : list val := dkeys (st_timer s).

(** timer.loc[ids, ...] succeeds only if every id is known *)
Definition known (s : story) (ids : list val) : bool := forallb (fun i => mem i (st_ids s)) ids.

(** value of the last pair of [l] with key [k]: assignments with repeated labels
    keep the last value *)
Definition dget_last {V} (k : val) (l : list (val * V)) : option V := dget k (rev l).

(** story.py:107-108 get_possible_states *)
Definition get_possible_states (s : story) : list string := st_states s.

Inductive param := Activity | BackProb.
Definition param_of (p : param) (ab : Q * Q) : Q := match p with Activity => fst ab | BackProb => snd ab end.

(** current state of a member *)
Definition state_of (s : story) (i : val) : option string := option_map fst (dget i (st_timer s)).
Definition remaining_of (s : story) (i : val) : option (option Z) := option_map snd (dget i (st_timer s)).

(** declared parameter of a member in a state *)
Definition declared (s : story) (p : param) (i : val) (state : string) : option Q :=
  match dget i (st_params s) with
  | Some states => option_map (param_of p) (dget state states)
  | None => None
  end.

(** story.py:91-105 get_param.  With one possible state the current states are
    ignored; otherwise the pairs (id, current state) are looked up.  With
    several states and repeated ids the lookup is ambiguous: not modelled. *)
Definition get_param (s : story) (p : param) (ids : list val) : result (list (val * Q)) :=
  if length (get_possible_states s) =? 1 then
    mapr (fun i => match declared s p i "default" with Some q => Ok (i, q) | None => Err KeyError end) ids
  else if negb (nodupb ids) then Err Unmodelled
  else mapr (fun i => match state_of s i with
                      | None => Err KeyError
                      | Some st => match declared s p i st with
                                   | Some q => Ok (i, q)
                                   | None => Err KeyError
                                   end
                      end) ids.

(** story.py:110-115 transit_to_state *)
Definition transit_to_state (s : story) (ids : list val) (states : list string) : result story :=
  if negb (known s ids) then Err KeyError
  else if negb (length ids =? length states) then Err ValueError
  else Ok (with_timer s (map (fun '(i, (st, r)) =>
             (i, (match dget_last i (combine ids states) with Some st' => st' | None => st end, r)))
             (st_timer s))).

(** story.py:117-124 active_inactive_ids *)
Definition is_due (x : val * (string * option Z)) : bool :=
  match snd (snd x) with Some r => (r =? 0)%Z | None => false end.
Definition active_inactive_ids (s : story) : list val * list val :=
  (map fst (filter is_due (st_timer s)), map fst (filter (fun x => negb (is_due x)) (st_timer s))).

(** story.py:126-136 timer_tick: only counters >= 0 are decremented, once. *)
Definition ticked (r : option Z) : option Z :=
  match r with Some n => if (0 <=? n)%Z then Some (n - 1)%Z else Some n | None => None end.
Definition timer_tick (s : story) (member_ids : list val) : result story :=
  let ids := match st_forced s with
             | [] => member_ids
             | _ => index_difference member_ids (st_forced s)
             end in
  if negb (known s ids) then Err KeyError
  else Ok (with_timer s (map (fun '(i, (st, r)) => (i, (st, if mem i ids then ticked r else r)))
                             (st_timer s))).

(** story.py:138-141 force_act_next: the forced set is extended before the timer
    is written, hence also when an unknown id makes the latter raise. *)
Definition force_act_next (s : story) (ids : list val) : result unit * story :=
  match ids with
  | [] => (Ok tt, s)
  | _ =>
      let s' := with_forced s (index_union ids (st_forced s)) in
      if negb (known s ids) then (Err KeyError, s')
      else (Ok tt, with_timer s' (map (fun '(i, (st, r)) => (i, (st, if mem i ids then Some 0%Z else r)))
                                      (st_timer s')))
  end.

(** story.py:143-179 reset_timers; [g] is self.time_generator. *)
Definition reset_timers (s : story) (g : tgen) (oids : option (list val)) : result (story * tgen) :=
  let ids := index_difference (match oids with None => st_ids s | Some l => l end) (st_forced s) in
  match ids with
  | [] => Ok (s, g)
  | _ =>
      let! activity := get_param s Activity ids in
      let! (new_timer, g') := tgen_generate g activity in
      (* new_timer.where(cond=activity != 0, other=-1) *)
      let new_timer := map (fun '((i, a), (_, t)) => (i, if Qeq_bool a 0 then Some (-1)%Z else t))
                           (combine activity new_timer) in
      if negb (known s ids) then Err KeyError
      else Ok (with_timer s (map (fun '(i, (st, r)) =>
                 (i, (st, match dget_last i new_timer with Some t => t | None => r end)))
                 (st_timer s)), g')
  end.

(** ** The same methods on the story at an address of the world *)
Definition story_transit (a : nat) (ids : list val) (states : list string) : M unit :=
  let* s := deref w_stories a in
  let* s' := lift (transit_to_state s ids states) in
  put_story a s'.

Definition story_tick (a : nat) (ids : list val) : M unit :=
  let* s := deref w_stories a in
  let* s' := lift (timer_tick s ids) in
  put_story a s'.

Definition story_force (a : nat) (ids : list val) : M unit :=
  let* s := deref w_stories a in
  let (res, s') := force_act_next s ids in
  let* _ := put_story a s' in
  lift res.

Definition story_reset (a : nat) (ids : option (list val)) : M unit :=
  let* s := deref w_stories a in
  let* g := deref w_tgens (st_tgen s) in
  let* (s', g') := lift (reset_timers s g ids) in
  let* _ := put_tgen (st_tgen s) g' in
  put_story a s'.

(** ** Construction *)

(** One entry of the [states] argument: name, activity generator,
    back_to_default_probability generator. *)
Definition state_gens := (nat * nat)%type.

(** story.py:57-66: for each state, one activity and one probability per member,
    in the order of ids; pandas refuses a list of another length.  Values that
    are not numbers are not modelled. *)
Definition state_params (ids : list val) (size : Z) (g : state_gens) : M (list (Q * Q)) :=
  let* activity_vals := generate (fst g) size in
  let* probs_vals := generate (snd g) size in
  if negb (length activity_vals =? length ids) || negb (length probs_vals =? length ids)
  then raise ValueError
  else
    let* acts := lift (mapr as_Q activity_vals) in
    let* probs := lift (mapr as_Q probs_vals) in
    ret (combine acts probs).

Fixpoint all_params (ids : list val) (size : Z) (states : list (string * state_gens))
  : M (list (string * list (Q * Q))) :=
  match states with
  | [] => ret []
  | (name, g) :: states' =>
      let* ps := state_params ids size g in
      let* rest := all_params ids size states' in
      ret ((name, ps) :: rest)
  end.

(** the table self.params, by member *)
Fixpoint params_table (ids : list val) (cols : list (string * list (Q * Q)))
  : dict val (dict string (Q * Q)) :=
  match ids with
  | [] => []
  | i :: ids' =>
      (i, flat_map (fun c => match snd c with x :: _ => [(fst c, x)] | [] => [] end) cols)
      :: params_table ids' (map (fun c => (fst c, tl (snd c))) cols)
  end.

(** story.py:11-78 __init__ without the final reset: [default] are the generators of
    the state "default"; [order] is the iteration order of the merged
    dictionary (a permutation of its keys).  A state named "default" in
    [states] is refused by merge_2_dicts.  The story is not yet in the circus,
    so nothing refers to it before it is complete. *)
Definition new_story (order : list string -> list string)
    (name : string) (p : nat) (member_id_field : string) (default : state_gens)
    (states : option (dict string state_gens)) (timer_gen : nat) (auto : bool) : M story :=
  let* po := deref w_pops p in
  let* merged :=
    match states with
    | None => ret [("default"%string, default)]
    | Some d => let dd := [("default"%string, default)] in
                lift (merge_2_dicts_ord (order (union_keys dd d)) None dd d)
    end in
  let* cols := all_params (p_ids po) (p_size po) merged in
  let s := mkStory name p member_id_field timer_gen auto [] (map fst merged)
             (params_table (p_ids po) cols)
             (map (fun i => (i, ("default"%string, Some (-1)%Z))) (p_ids po)) [] in
  if auto then
    let* g := deref w_tgens timer_gen in
    let* (s', g') := lift (reset_timers s g None) in
    let* _ := put_tgen timer_gen g' in
    ret s'
  else ret s.

(** story.py:80-89 set_operations, append_operations.  The internal operation
    owns a generator NumpyRandomGenerator(method="uniform", seed=1234). *)
Definition set_operations (a : nat) (ops : list op) : M unit :=
  let* s := deref w_stories a in
  let* g := get w_prng in
  let* gens := get w_gens in
  let* _ := modify (set_gens (gens ++ [GNumpy NpUniform (random_state g 1234) None])) in
  put_story a (with_ops s (ops ++ [OpBack a (length gens)])).

Definition append_operations (a : nat) (ops : list op) : M unit :=
  let* s := deref w_stories a in
  put_story a (with_ops s (st_ops s ++ ops)).
