(** Specification vocabulary for operations acting on stories and attributes: which rows of
    the story data they name. *)
From Verif Require Import Base Frame World SpecOps.

(** The row is retained by the condition: no condition, or a column that holds True. *)
Definition chosen (cond : option string) (d : df) (row : val * list val) : Prop :=
  match cond with None => True | Some c => cell (df_cols d) (snd row) c = VBool true end.

(** Some retained row of [d] holds the id [i] (not NaN) under column [f]. *)
Definition targets (f : string) (cond : option string) (d : df) (i : val) : Prop :=
  i <> VNA /\ exists row, In row (df_rows d) /\ chosen cond d row /\ cell (df_cols d) (snd row) f = i.

(** The row sends the member [i] to the state [st]: the same state for every row ([inr]), or
    the state written in a column ([inl]). *)
Definition moves (f : string) (state : string + string) (cond : option string) (d : df)
    (row : val * list val) (i : val) (st : string) : Prop :=
  chosen cond d row /\ i <> VNA /\ cell (df_cols d) (snd row) f = i /\
  match state with inr s => st = s | inl c => cell (df_cols d) (snd row) c = VStr st end.

(** The last row that moves [i] sends it to [st]. *)
Definition last_move (f : string) (state : string + string) (cond : option string) (d : df) (i : val) (st : string) : Prop :=
  exists before row after, df_rows d = before ++ row :: after /\ moves f state cond d row i st /\
    forall row' st', In row' after -> ~ moves f state cond d row' i st'.
Definition never_moved (f : string) (state : string + string) (cond : option string) (d : df) (i : val) : Prop :=
  forall row st, In row (df_rows d) -> ~ moves f state cond d row i st.

(** Nothing but the story [a] differs. *)
Definition only_story (a : nat) (w w' : world) : Prop :=
  w' = set_stories (w_stories w') w /\ forall b, b <> a -> nth_error (w_stories w') b = nth_error (w_stories w) b.
