(** Specification vocabulary for stories: what can be observed of a story and the
    histories of calls the properties quantify over. *)
From Verif Require Import Base Rng Relationship Frame Gens Clock SpecClock Attribute World Story Ops Fs Circus.

(** The story at address [a] counts [i] among its members with counter [r]
    (None: NaN). *)
Definition counter (w : world) (a : nat) (i : val) (r : option Z) : Prop :=
  exists s st, nth_error (w_stories w) a = Some s /\ In (i, (st, r)) (st_timer s).

Definition in_state (w : world) (a : nat) (i : val) (st : string) : Prop :=
  exists s r, nth_error (w_stories w) a = Some s /\ In (i, (st, r)) (st_timer s).

(** Members that would act if the story were executed now, in table order. *)
Definition due_members (s : story) : list val :=
  map fst (filter (fun x => match snd (snd x) with Some r => Z.eqb r 0 | None => false end) (st_timer s)).
Definition acts_now (w : world) (a : nat) (i : val) : Prop :=
  exists s, nth_error (w_stories w) a = Some s /\ In i (due_members s).

(** No story lists a member twice (population ids are distinct). *)
Definition distinct_members (w : world) : Prop :=
  forall a s, nth_error (w_stories w) a = Some s -> NoDup (map fst (st_timer s)).

(** What may happen to a circus: a story is executed, the clock is incremented,
    the methods of a story are called by the user. *)
Inductive happening :=
| HExec (a : nat)
| HClock
| HForce (a : nat) (ids : list val)
| HReset (a : nat) (ids : option (list val))
| HTransit (a : nat) (ids : list val) (states : list string)
| HTick (a : nat) (ids : list val).

Definition happen (h : happening) (w : world) : result unit * world :=
  match h with
  | HExec a => match execute a w with (Ok _, w') => (Ok tt, w') | (Err e, w') => (Err e, w') end
  | HClock => (Ok tt, increment_clock w)
  | HForce a ids => story_force a ids w
  | HReset a ids => story_reset a ids w
  | HTransit a ids states => story_transit a ids states w
  | HTick a ids => story_tick a ids w
  end.

(** A history in which nothing raises. *)
Inductive history : world -> list happening -> world -> Prop :=
| HNil w : history w [] w
| HCons w h w1 l w2 : happen h w = (Ok tt, w1) -> history w1 l w2 -> history w (h :: l) w2.

(** Number of executions of story [a]. *)
Fixpoint executions (a : nat) (l : list happening) : nat :=
  match l with
  | [] => 0
  | HExec b :: l' => (if Nat.eqb a b then 1 else 0) + executions a l'
  | _ :: l' => executions a l'
  end.

(** Operations that force or reset story [a]. *)
Fixpoint reschedules (a : nat) (o : op) : bool :=
  match o with
  | OpForce b _ _ => Nat.eqb a b
  | OpReset b _ => Nat.eqb a b
  | OpChain ops => existsb (reschedules a) ops
  | _ => false
  end.

(** Nobody reschedules story [a]: no operation of any story does, and the user
    does not. *)
Definition nobody_reschedules (w : world) (a : nat) (l : list happening) : Prop :=
  (forall b s o, nth_error (w_stories w) b = Some s -> In o (st_ops s) -> reschedules a o = false) /\
  (forall h, In h l -> match h with
                       | HForce b _ | HReset b _ | HTick b _ => b <> a
                       | _ => True
                       end).

(** In the history [l] starting from [w], member [i] acts at the [k]-th execution of
    story [a] (counting from 0). *)
Inductive acts_at (a : nat) (i : val) : world -> list happening -> nat -> Prop :=
| acts_first w l : acts_now w a i -> acts_at a i w (HExec a :: l) 0
| acts_later w l k : acts_at a i (snd (happen (HExec a) w)) l k -> acts_at a i w (HExec a :: l) (S k)
| acts_skip w h l k : h <> HExec a -> acts_at a i (snd (happen h w)) l k -> acts_at a i w (h :: l) k.

(** The world after the happenings [l], some of which may have raised (and the
    exception been caught by the caller). *)
Fixpoint after (w : world) (l : list happening) : world :=
  match l with [] => w | h :: l' => after (snd (happen h w)) l' end.

(** Story [a] resets the timers of its active members by itself. *)
Definition auto_reset (w : world) (a : nat) (b : bool) : Prop :=
  exists s, nth_error (w_stories w) a = Some s /\ st_auto s = b.

(** The timer generator of story [a] always yields [c]. *)
Definition constant_timer (w : world) (a : nat) (c : Z) : Prop :=
  exists s, nth_error (w_stories w) a = Some s /\ nth_error (w_tgens w) (st_tgen s) = Some (TConst c).

(** Every activity declared for [i], whatever the state, is not 0. *)
Definition never_idle (w : world) (a : nat) (i : val) : Prop :=
  exists s, nth_error (w_stories w) a = Some s /\
    forall states st ab, In (i, states) (st_params s) -> In (st, ab) states -> ~ (fst ab == 0)%Q.

(** Parameters declared for member [i] in state [st]. *)
Definition activity_in (s : story) (i : val) (st : string) (q : Q) : Prop :=
  exists states ab, In (i, states) (st_params s) /\ In (st, ab) states /\ q = fst ab.
Definition back_probability_in (s : story) (i : val) (st : string) (q : Q) : Prop :=
  exists states ab, In (i, states) (st_params s) /\ In (st, ab) states /\ q = snd ab.

(** A call of a method of story [a] naming [i]. *)
Definition names (h : happening) (a : nat) (i : val) : Prop :=
  match h with
  | HForce b ids | HTick b ids | HTransit b ids _ => b = a /\ In i ids
  | HReset b (Some ids) => b = a /\ In i ids
  | _ => False
  end.

(** Operations that change states in story [a]. *)
Fixpoint changes_states (a : nat) (o : op) : bool :=
  match o with
  | OpTransit b _ _ _ => Nat.eqb a b
  | OpBack b _ => Nat.eqb a b
  | OpChain ops => existsb (changes_states a) ops
  | _ => false
  end.

(** A generator of numbers uniform in [0, 1). *)
Definition uniform_generator (w : world) (g : nat) : Prop :=
  exists state, nth_error (w_gens w) g = Some (GNumpy NpUniform state None).

(** The story data handed to the operations when the members [ids] act. *)
Definition story_rows (field : string) (ids : list val) : df := mkDf [field] (map (fun i => (i, [i])) ids).

(** The world in which the operations of story [a] start: nobody is marked as forced. *)
Definition at_start (a : nat) (w : world) : world :=
  match nth_error (w_stories w) a with
  | Some s => set_stories (set_nth a (mkStory (st_name s) (st_pop s) (st_field s) (st_tgen s) (st_auto s) []
                (st_states s) (st_params s) (st_timer s) (st_ops s)) (w_stories w)) w
  | None => w
  end.

(** A timer generator whose values are delays: a constant >= 0, or a cyclic timer. *)
Definition delays (g : tgen) : Prop :=
  (exists c, (0 <= c)%Z /\ g = TConst c) \/
  (exists p start cstep k y, live p start cstep k y /\ g = TCyclic y).

(** The timer generator of story [a]. *)
Definition timer_generator (w : world) (a : nat) (g : tgen) : Prop :=
  exists s, nth_error (w_stories w) a = Some s /\ nth_error (w_tgens w) (st_tgen s) = Some g.

(** Every activity declared for [i] is positive. *)
Definition always_active (w : world) (a : nat) (i : val) : Prop :=
  exists s, nth_error (w_stories w) a = Some s /\
    forall st q, activity_in s i st q -> (0 < q)%Q.

Definition is_forced (w : world) (a : nat) (i : val) : Prop :=
  exists s, nth_error (w_stories w) a = Some s /\ In i (st_forced s).

(** The states of story [a]: "default" is declared, and every member is in a declared state. *)
Definition sound_states (w : world) (a : nat) : Prop :=
  forall s, nth_error (w_stories w) a = Some s ->
    In "default"%string (st_states s) /\ forall i st r, In (i, (st, r)) (st_timer s) -> In st (st_states s).

(** [i] is named by the call reset_timers(ids): no ids means everybody. *)
Definition reset_names (s : story) (ids : option (list val)) (i : val) : Prop :=
  match ids with Some l => In i l | None => In i (map fst (st_timer s)) end.
