(** Specification vocabulary for stories that only act when told to. *)
From Verif Require Import Base Frame Clock World Ops SpecStory SpecOps.

(** The operation, run on the rows [d] in [w], tells the member [i] of the story [b] to act: a row names the member,
    and its condition holds. *)
Inductive told (b : nat) (i : val) : op -> df -> world -> Prop :=
| told_by f cond d w row : In row (df_rows d) -> cell (df_cols d) (snd row) f = i -> i <> VNA ->
    match cond with None => True | Some c => cell (df_cols d) (snd row) c = VBool true end -> told b i (OpForce b f cond) d w
| told_in before o rest d w d1 l1 w1 : run_chain before d w = (Ok (d1, l1), w1) -> told b i o d1 w1 -> told b i (OpChain (before ++ o :: rest)) d w.

(** So does something that happens to [w]. *)
Definition told_during (b : nat) (i : val) (w : world) (h : happening) : Prop :=
  match h with
  | HForce a ids => a = b /\ In i ids
  | HExec a => exists s, nth_error (w_stories w) a = Some s /\ due_members s <> [] /\
      told b i (OpChain (st_ops s)) (story_rows (st_field s) (due_members s)) (at_start a w)
  | _ => False
  end.

(** The story [b] has no timer generator, that is, one that always answers "never" (a negative number), and nobody
    is scheduled. *)
Definition without_timer (w : world) (b : nat) : Prop :=
  (exists v, (v < 0)%Z /\ timer_generator w b (TConst v)) /\ forall i z, counter w b i (Some z) -> (z < 0)%Z.
