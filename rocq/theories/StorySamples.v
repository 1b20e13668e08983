(** Concrete circuses used by the examples beside the story and operation properties. *)
From Verif Require Import Base BaseFacts Rng Utils Relationship Frame Gens Clock Attribute World Story Ops Fs Circus
  SpecStory SpecWorld Samples.
From Coq Require Import Permutation.

Definition calls (w : world) (l : list call) : world := fold_left (fun w c => after_call c w) l w.
Lemma built_calls g l : forall w, built g w -> Forall proper l -> built g (calls w l).
Proof.
  induction l as [|c l IH]; intros w H F; cbn; [exact H|]. inversion F; subst. apply IH; [|assumption]. now constructor.
Qed.

Definition circus0 : world := new_circus stream 1 monday hour.
Definition keep_order (l : list string) : list string := l.
Definition visit (name : string) (timer : nat) (auto : bool) : call :=
  CStory keep_order name 0 "PERSON" (0, 1) (Some [("busy"%string, (0, 2))]) timer auto.

(** Three people, with activity 1; back_to_default_probability 0 in the default state and 1
    when busy.  Timer 0 always yields 2, timer 1 always yields 0. *)
Definition people_calls : list call :=
  [CNewGen (GConst (vz 1)); CNewGen (GConst (vz 0)); CNewGen (GConst (vz 1));
   CNewTimer (TConst 2) false; CNewTimer (TConst 0) false;
   CPopulation "people" None None (Some [s_ "A"; s_ "B"; s_ "C"])].
Definition people : world := calls circus0 people_calls.

(** One story [name] over the people. *)
Definition town (timer : nat) (auto : bool) (ops : list op) : world :=
  calls people [visit "visits" timer auto; CSetOperations 0 ops].
(** Two stories. *)
Definition town2 (t0 : nat) (a0 : bool) (ops0 : list op) (t1 : nat) (a1 : bool) (ops1 : list op) : world :=
  calls people [visit "visits" t0 a0; visit "calls" t1 a1; CSetOperations 0 ops0; CSetOperations 1 ops1].

Lemma town_built t b ops : built stream (town t b ops).
Proof.
  unfold town, people. apply built_calls; [apply built_calls; [apply built_new|]|];
  repeat constructor; intros l; apply Permutation_refl.
Qed.
Lemma town2_built t b ops t' b' ops' : built stream (town2 t b ops t' b' ops').
Proof.
  unfold town2, people. apply built_calls; [apply built_calls; [apply built_new|]|];
  repeat constructor; intros l; apply Permutation_refl.
Qed.

(** Histories in which nothing raises. *)
Fixpoint all_ok (w : world) (l : list happening) : bool :=
  match l with [] => true | h :: l' => is_ok (fst (happen h w)) && all_ok (snd (happen h w)) l' end.
Lemma all_ok_history l : forall w, all_ok w l = true -> history w l (after w l).
Proof.
  induction l as [|h l IH]; intros w H; cbn [all_ok after] in *; [constructor|].
  apply andb_true_iff in H as [H1 H2]. apply (HCons _ _ (snd (happen h w))); [|now apply IH].
  destruct (happen h w) as [[[]|e] w1]; [reflexivity|discriminate].
Qed.

(** A computation that does not raise, without normalising the world it leads to. *)
Lemma ran {A} (d : A) (m : M A) w : is_ok (fst (m w)) = true -> m w = (Ok (ok_or d (fst (m w))), snd (m w)).
Proof. now destruct (m w) as [[x|e] w1]. Qed.
Lemma ran_ex {A} (d : A) (m : M A) w (P : A -> world -> Prop) : is_ok (fst (m w)) = true ->
  P (ok_or d (fst (m w))) (snd (m w)) -> exists a w', m w = (Ok a, w') /\ P a w'.
Proof. intros H HP. exists (ok_or d (fst (m w))), (snd (m w)). split; [now apply ran|exact HP]. Qed.

(** Decidable views *)
Definition shows (w : world) (a : nat) (i : val) (x : string * option Z) : bool :=
  match nth_error (w_stories w) a with
  | Some s => match dget i (st_timer s) with
              | Some (st, r) => String.eqb st (fst x) &&
                  match r, snd x with Some p, Some q => Z.eqb p q | None, None => true | _, _ => false end
              | None => false
              end
  | None => false
  end.
Lemma shows_in w a i st r : shows w a i (st, r) = true ->
  exists s, nth_error (w_stories w) a = Some s /\ In (i, (st, r)) (st_timer s).
Proof.
  unfold shows. destruct (nth_error (w_stories w) a) as [s|]; [|discriminate].
  destruct (dget i (st_timer s)) as [[st' r']|] eqn:E; [|discriminate]. cbn [fst snd].
  intros H. apply andb_true_iff in H as [H1 H2]. apply String.eqb_eq in H1. subst st'.
  exists s. split; [reflexivity|]. apply dget_In in E.
  destruct r' as [p|], r as [q|]; try discriminate; [|exact E]. apply Z.eqb_eq in H2. now subst.
Qed.
Lemma shows_counter w a i st r : shows w a i (st, r) = true -> counter w a i r.
Proof. intros H. apply shows_in in H as (s & H1 & H2). now exists s, st. Qed.
Lemma shows_state w a i st r : shows w a i (st, r) = true -> in_state w a i st.
Proof. intros H. apply shows_in in H as (s & H1 & H2). now exists s, r. Qed.

Definition reschedulable (a : nat) (w : world) (l : list happening) : bool :=
  forallb (fun s => forallb (fun o => negb (reschedules a o)) (st_ops s)) (w_stories w) &&
  forallb (fun h => match h with HForce b _ | HReset b _ | HTick b _ => negb (Nat.eqb b a) | _ => true end) l.
Lemma nobody_by_check a w l : reschedulable a w l = true -> nobody_reschedules w a l.
Proof.
  unfold reschedulable. intros H. apply andb_true_iff in H as [H1 H2]. rewrite forallb_forall in H1, H2. split.
  - intros b s o Hs Ho. specialize (H1 s (nth_error_In _ _ Hs)). rewrite forallb_forall in H1. specialize (H1 o Ho).
    now apply negb_true_iff in H1.
  - intros h Hh. specialize (H2 h Hh). destruct h; auto; apply negb_true_iff, Nat.eqb_neq in H2; exact H2.
Qed.

(** States and parameters *)
Definition states_ok (w : world) (a : nat) : bool :=
  match nth_error (w_stories w) a with
  | None => true
  | Some s => mem "default"%string (st_states s) && forallb (fun x => mem (fst (snd x)) (st_states s)) (st_timer s)
  end.
Lemma states_by_check w a : states_ok w a = true -> sound_states w a.
Proof.
  unfold states_ok, sound_states. intros H s Hs. rewrite Hs in H. apply andb_true_iff in H as [H1 H2].
  rewrite forallb_forall in H2. split; [now apply mem_In|]. intros i st r Hi. specialize (H2 _ Hi). now apply mem_In.
Qed.
Definition active_b (w : world) (a : nat) (i : val) : bool :=
  match nth_error (w_stories w) a with
  | None => false
  | Some s => forallb (fun x => negb (val_eqb (fst x) i) || forallb (fun y => Qltb 0 (fst (snd y))) (snd x)) (st_params s)
  end.
Lemma active_check w a i : active_b w a i = true -> always_active w a i.
Proof.
  unfold active_b, always_active. destruct (nth_error (w_stories w) a) as [s|]; [|discriminate]. intros H.
  exists s. split; [reflexivity|]. intros st q (sts & ab & H1 & H2 & ->). rewrite forallb_forall in H.
  specialize (H _ H1). cbn [fst snd] in H. rewrite (proj2 (val_eqb_eq i i) eq_refl) in H.
  cbn [negb orb] in H. rewrite forallb_forall in H. specialize (H _ H2). cbn [fst snd] in H.
  unfold Qltb in H. apply negb_true_iff in H. destruct (Qlt_le_dec 0 (fst ab)); [assumption|].
  apply Qle_bool_iff in q. congruence.
Qed.
Lemma active_not_idle w a i : always_active w a i -> never_idle w a i.
Proof.
  intros (s & Hs & H). exists s. split; [exact Hs|]. intros sts st ab H1 H2 E.
  assert (0 < fst ab)%Q by (apply (H st); exists sts, ab; auto). rewrite E in H0. now apply (Qlt_irrefl 0).
Qed.
Lemma happen_ok h w : is_ok (fst (happen h w)) = true -> happen h w = (Ok tt, after w [h]).
Proof. cbn [after]. now destruct (happen h w) as [[[]|e] w1]. Qed.
Lemma after_app l m w : after w (l ++ m) = after (after w l) m.
Proof. revert w. induction l as [|h l IH]; intros w; cbn [after app]; [reflexivity|apply IH]. Qed.

Definition due_now (w : world) (a : nat) : list val :=
  match nth_error (w_stories w) a with Some s => due_members s | None => [] end.
Lemma due_now_acts w a i : mem i (due_now w a) = true -> acts_now w a i.
Proof.
  unfold due_now. destruct (nth_error (w_stories w) a) as [s|] eqn:E; [|discriminate]. intros H. exists s.
  split; [exact E|]. now apply mem_In.
Qed.
Lemma due_now_not w a i : mem i (due_now w a) = false -> ~ acts_now w a i.
Proof.
  intros H (s & Hs & Hi). unfold due_now in H. rewrite Hs in H. apply mem_In in Hi. congruence.
Qed.
Lemma back_check s i st v : 
  forallb (fun x => negb (val_eqb (fst x) i) ||
     forallb (fun y => negb (String.eqb (fst y) st) || Qeq_bool (snd (snd y)) v) (snd x)) (st_params s) = true ->
  forall q, back_probability_in s i st q -> (q == v)%Q.
Proof.
  intros H q (sts & ab & H1 & H2 & ->). rewrite forallb_forall in H. specialize (H _ H1). cbn [fst snd] in H.
  rewrite (proj2 (val_eqb_eq i i) eq_refl) in H. cbn [negb orb] in H. rewrite forallb_forall in H.
  specialize (H _ H2). cbn [fst snd] in H. rewrite String.eqb_refl in H. now apply Qeq_bool_iff.
Qed.
Definition asleep_b (w : world) (a : nat) : bool :=
  match nth_error (w_stories w) a with
  | Some s => forallb (fun x => match snd (snd x) with Some z => Z.eqb z (-1) | None => false end) (st_timer s)
  | None => false
  end.
