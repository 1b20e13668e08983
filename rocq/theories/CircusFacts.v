(** Facts about running a circus: what an execution keeps, and what saving logs does to the
    file system. *)
From Coq Require Import Permutation.
From Verif Require Import Base BaseFacts Rng Utils UtilsFacts Relationship RelationshipFacts Frame Gens Clock
  Attribute AttributeFacts World Story Ops OpsFacts OpsProps Fs Circus SpecStory StoryFacts StoryExec SpecFs FsFacts SpecCircus.

(** ** An execution keeps the date, the step and the number of stories *)
Definition shape (w w' : world) : Prop :=
  c_date (w_clock w') = c_date (w_clock w) /\ c_step (w_clock w') = c_step (w_clock w) /\
  length (w_stories w') = length (w_stories w).
Lemma shape_refl w : shape w w.
Proof. now split. Qed.
Lemma shape_trans w1 w2 w3 : shape w1 w2 -> shape w2 w3 -> shape w1 w3.
Proof. intros (A & B & D) (A' & B' & D'). split; [congruence|]. split; congruence. Qed.
Lemma shape_same w w' : w_clock w' = w_clock w -> w_stories w' = w_stories w -> shape w w'.
Proof. intros E1 E2. unfold shape. now rewrite E1, E2. Qed.
Lemma shape_put w w' a s : w_clock w' = w_clock w -> w_stories w' = set_nth a s (w_stories w) -> shape w w'.
Proof. intros E1 E2. unfold shape. now rewrite E1, E2, set_nth_length. Qed.

Lemma shape_reset a ids : keeps shape (story_reset a ids).
Proof.
  intros w. unfold story_reset, bindM, deref, lift.
  destruct (nth_error (w_stories w) a) as [s|] eqn:Es; [|apply shape_refl].
  destruct (nth_error (w_tgens w) (st_tgen s)) as [g|] eqn:Eg; [|apply shape_refl].
  destruct (reset_timers s g ids) as [[s' g']|e] eqn:Er; [|apply shape_refl].
  now apply (shape_put _ _ a s').
Qed.
Lemma shape_force a ids : keeps shape (story_force a ids).
Proof.
  intros w. unfold story_force, bindM, deref.
  destruct (nth_error (w_stories w) a) as [s|]; [|apply shape_refl].
  destruct (force_act_next s ids) as [r s']. now apply (shape_put _ _ a s').
Qed.
Lemma shape_transit a ids st : keeps shape (story_transit a ids st).
Proof.
  intros w. unfold story_transit, bindM, deref, lift.
  destruct (nth_error (w_stories w) a) as [s|]; [|apply shape_refl].
  destruct (transit_to_state s ids st) as [s'|e]; [|apply shape_refl]. now apply (shape_put _ _ a s').
Qed.
Lemma shape_tick a ids : keeps shape (story_tick a ids).
Proof.
  intros w. unfold story_tick, bindM, deref, lift.
  destruct (nth_error (w_stories w) a) as [s|]; [|apply shape_refl].
  destruct (timer_tick s ids) as [s'|e]; [|apply shape_refl]. now apply (shape_put _ _ a s').
Qed.
Lemma chain_shape ops d : keeps shape (run_chain ops d).
Proof.
  apply (run_chain_keeps shape (fun _ => True) (fun _ => True) (fun _ => True)); auto.
  - apply shape_refl.
  - apply shape_trans.
  - intros w c E1 E2 _. now split.
  - intros; now apply shape_same.
  - intros; now apply shape_same.
  - intros; now apply shape_same.
  - intros; now apply shape_same.
  - intros; now apply shape_same.
  - intros; apply shape_force.
  - intros; apply shape_reset.
  - intros; apply shape_transit.
Qed.
Lemma execute_shape a : keeps shape (execute a).
Proof.
  pose proof shape_trans as Tr. intros w. unfold execute.
  apply keeps_bind_dep; [apply Tr|unfold deref; destruct (nth_error (w_stories w) a); apply shape_refl|].
  intros s w1 _. apply keeps_bind_dep; [apply Tr|now apply (shape_put _ _ a (with_forced s []))|]. intros _ w2 _.
  rewrite active_spec. apply keeps_bind_dep; [apply Tr| |].
  - destruct (due_members s) as [|x l]; [apply shape_refl|].
    apply keeps_bind_dep; [apply Tr|apply chain_shape|]. intros [d' lg] w3 _.
    apply keeps_bind_dep; [apply Tr| |intros; apply shape_refl].
    destruct (st_auto s); [apply shape_reset|apply shape_tick].
  - intros lg w3 _. apply keeps_bind_dep; [apply Tr|apply shape_tick|intros; apply shape_refl].
Qed.
Lemma increment_facts w : c_date (w_clock (increment_clock w)) = (c_date (w_clock w) + c_step (w_clock w))%Z /\
  c_step (w_clock (increment_clock w)) = c_step (w_clock w) /\
  length (w_stories (increment_clock w)) = length (w_stories w).
Proof. unfold increment_clock, clock_increment. cbn. now split. Qed.

(** ** The logs of an execution are a dictionary: one frame per log id *)
Lemma run_op_nodup o : forall d w d' l w', run_op o d w = (Ok (d', l), w') -> NoDup (dkeys l).
Proof.
  assert (Htr : forall m w d' l w', transformed m w = (Ok (d', l), w') -> l = []).
  { intros m w0 d0 l0 w0' H. apply bindM_ok in H. destruct H as (x & w1 & _ & H). now injection H as _ <-. }
  assert (Hse : forall d m w d' l w', side_effect d m w = (Ok (d', l), w') -> l = []).
  { intros d0 m w0 d1 l0 w0' H. apply bindM_ok in H. destruct H as (x & w1 & _ & H). now injection H as _ <-. }
  induction o as [o Hb|ops IH] using op_ind'; intros d w d' l w' H.
  - destruct o; cbn [run_op] in H;
      try (apply Htr in H; subst; constructor); try (apply Hse in H; subst; constructor).
    + apply bindM_ok in H. destruct H as (x & w1 & _ & H). injection H as _ <- _. cbn. now repeat constructor.
    + exfalso. eapply Hb. reflexivity.
  - cbn [run_op] in H.
    assert (G : forall ops d l0 w d' l w', Forall (fun o => forall d w d' l w', run_op o d w = (Ok (d', l), w') ->
                NoDup (dkeys l)) ops -> NoDup (dkeys l0) ->
                run_list run_op ops d l0 w = (Ok (d', l), w') -> NoDup (dkeys l)).
    { clear. induction ops as [|o ops IHo]; intros d l0 w d' l w' HF Hn H; cbn [run_list] in H.
      - now injection H as _ <- _.
      - inversion HF; subst.
        apply bindM_ok in H. destruct H as ([d1 s] & w1 & H0 & H).
        apply bindM_ok in H. destruct H as (m & w2 & Hm & H). apply lift_ok in Hm. destruct Hm as [Hm ->].
        eapply IHo; [eassumption| |exact H].
        cbn [merge_dicts fold_left bind] in Hm. unfold merge_2_dicts in Hm. apply merge_ord_keys in Hm.
        rewrite Hm. apply union_keys_NoDup; [assumption|]. eapply H2; eauto. }
    eapply (G ops d [] w); [exact IH|constructor|exact H].
Qed.
Lemma execute_nodup a w l w' : execute a w = (Ok l, w') -> NoDup (dkeys l).
Proof.
  intros H. apply execute_ok in H. destruct H as (s & _ & [(_ & -> & _)|(_ & d' & w1 & w2 & H & _)]); [constructor|].
  change (run_op (OpChain (st_ops s)) (init_story_data (st_field s) (due_members s)) (unforced a s w) = (Ok (d', l), w1)) in H.
  eapply run_op_nodup; eauto.
Qed.

(** ** Paths *)
Lemma above_dec p q : {at_or_above p q} + {~ at_or_above p q}.
Proof.
  destruct (list_eq_dec string_dec (firstn (length q) p) q) as [E|N].
  - left. exists (skipn (length q) p). rewrite <- E at 1. now rewrite firstn_skipn.
  - right. intros [r ->]. apply N. rewrite firstn_app, Nat.sub_diag, firstn_all. cbn. now rewrite app_nil_r.
Qed.
Lemma below_not_above p c r : ~ at_or_above p (p ++ c :: r).
Proof. intros [s E]. apply (f_equal (@length string)) in E. rewrite !app_length in E. cbn in E. lia. Qed.
Lemma slen_app a b : String.length (a ++ b)%string = String.length a + String.length b.
Proof. induction a as [|x a IH]; cbn; [easy|]. now rewrite IH. Qed.
Lemma csv_inj a b : (a ++ ".csv")%string = (b ++ ".csv")%string -> a = b.
Proof.
  revert b; induction a as [|x a IH]; intros b E.
  - apply (f_equal String.length) in E. rewrite !slen_app in E. destruct b; [easy|]. cbn in E. lia.
  - destruct b as [|y b].
    + apply (f_equal String.length) in E. rewrite !slen_app in E. cbn in E. lia.
    + injection E as -> E. f_equal. now apply IH.
Qed.
Lemma log_file_inj folder a b : log_file folder a = log_file folder b -> a = b.
Proof. unfold log_file. intros E. apply app_inv_head in E. injection E as E. now apply csv_inj. Qed.

(** ** Saving one frame *)
Definition grown (s : seen lines) (d : df) : seen lines :=
  match df_rows d, s with
  | [], _ => s
  | _, Nothing => AFile (header_line d :: row_lines d)
  | _, AFile c => AFile (c ++ row_lines d)
  | _, ADir => ADir
  end.

Definition usable (fs : node lines) (folder : path) : Prop :=
  (forall q c, at_or_above folder q -> see fs q <> AFile c) /\ forall name, see fs (folder ++ [name]) <> ADir.

Definition file_after (id : string) (l : logs) (s : seen lines) : seen lines :=
  fold_left (fun s e => if String.eqb (fst e) id then grown s (snd e) else s) l s.

(** What saving the frames [l] one after the other does. *)
Definition effect (folder : path) (l : logs) (fs fs' : node lines) : Prop :=
  (forall id, see fs' (log_file folder id) = file_after id l (see fs (log_file folder id))) /\
  (l <> [] -> forall q, at_or_above folder q -> see fs' q = ADir) /\
  (forall q, (l <> [] -> ~ at_or_above folder q) -> (forall id, q <> log_file folder id) -> see fs' q = see fs q).

Lemma usable_dir fs folder : usable fs folder -> path_exists fs folder = true ->
  forall q, at_or_above folder q -> see fs q = ADir.
Proof.
  intros [U _] Ex q Hq. apply path_exists_see in Ex. destruct (see fs q) as [|c|] eqn:E; [|now apply U in E|easy].
  exfalso. destruct Hq as [r ->]. apply Ex. now apply see_none_app.
Qed.

Lemma save_effect folder fs id d : usable fs folder ->
  exists fs' es, apply_events fs (save_logs folder fs id d) = (Ok tt, fs', es) /\
    usable fs' folder /\ effect folder [(id, d)] fs fs'.
Proof.
  intros U.
  (* the folder *)
  assert (H1 : exists fs1 es1, apply_events fs (if path_exists fs folder then [] else [EMakedirs folder]) = (Ok tt, fs1, es1) /\
     (forall q, at_or_above folder q -> see fs1 q = ADir) /\
     (forall q, ~ at_or_above folder q -> see fs1 q = see fs q)).
  { destruct (path_exists fs folder) eqn:Ex.
    - exists fs, []. split; [easy|]. split; [now apply usable_dir|easy].
    - destruct (make_path_total fs folder) as [fs1 E].
      { intros q c Hq _. now apply (proj1 U). }
      assert (E' : os_makedirs fs folder = Ok fs1) by (unfold os_makedirs; now rewrite Ex).
      exists fs1, [EMakedirs folder]. split; [cbn; now rewrite E'|].
      destruct (makedirs_see _ _ _ E') as [_ [A B]]. now split. }
  destruct H1 as (fs1 & es1 & E1 & A1 & B1).
  assert (App : forall l1 l2 f f' e', apply_events f l1 = (Ok tt, f', e') ->
     apply_events f (l1 ++ l2) = let '(r, f2, e2) := apply_events f' l2 in (r, f2, e' ++ e2)).
  { clear. induction l1 as [|e l1 IH]; intros l2 f f' e' H; cbn in *.
    - injection H as <- <-. now destruct (apply_events f l2) as [[r f2] e2].
    - destruct (apply_event f e) as [f1|]; [|easy].
      destruct (apply_events f1 l1) as [[r f2] d1] eqn:E. injection H as -> -> <-.
      rewrite (IH l2 _ _ _ E). now destruct (apply_events f' l2) as [[r' f3] e2]. }
  unfold save_logs. rewrite (App _ _ _ _ _ E1).
  assert (Hfile : see fs1 (log_file folder id) = see fs (log_file folder id)) by apply B1, below_not_above.
  assert (Hdir : see fs1 folder = ADir) by (apply A1; exists []; now rewrite app_nil_r).
  (* the file *)
  set (es2 := match df_rows d with [] => [] | _ => _ end).
  assert (H2 : exists fs2 es2', apply_events fs1 es2 = (Ok tt, fs2, es2') /\
     see fs2 (log_file folder id) = grown (see fs (log_file folder id)) d /\
     (forall q, q <> log_file folder id -> see fs2 q = see fs1 q)).
  { unfold es2, grown. destruct (df_rows d) as [|x rows] eqn:Er.
    - exists fs1, []. now split.
    - clear es2. assert (Hr : row_lines d <> []) by (unfold row_lines; now rewrite Er).
      destruct (path_exists fs (log_file folder id)) eqn:Ex.
      + apply path_exists_see in Ex. destruct (see fs (log_file folder id)) as [|c|] eqn:Ec; [easy| |exfalso; now apply (proj2 U) in Ec].
        destruct (write_total fs1 folder (id ++ ".csv")%string (c ++ row_lines d)) as [fs2 E2]; [easy| |].
        { change (see fs1 (log_file folder id) <> ADir). now rewrite Hfile. }
        apply read_see in Hfile. exists fs2, [EAppend (log_file folder id) (row_lines d)].
        cbn [apply_events apply_event]. rewrite Hfile. cbn [bind]. change (folder ++ _) with (log_file folder id) in E2. rewrite E2.
        apply write_see in E2. tauto.
      + apply path_missing_see in Ex. rewrite Ex in *.
        destruct (write_total fs1 folder (id ++ ".csv")%string (header_line d :: row_lines d)) as [fs2 E2]; [easy| |].
        { change (see fs1 (log_file folder id) <> ADir). now rewrite Hfile. }
        exists fs2, [ECreate (log_file folder id) (header_line d :: row_lines d)].
        cbn [apply_events apply_event]. change (folder ++ _) with (log_file folder id) in E2. rewrite E2.
        apply write_see in E2. tauto. }
  destruct H2 as (fs2 & es2' & E2 & A2 & B2). rewrite E2. exists fs2, (es1 ++ es2'). split; [easy|].
  assert (Habove : forall q, at_or_above folder q -> see fs2 q = ADir).
  { intros q Hq. rewrite B2; [now apply A1|]. intros ->. revert Hq. apply below_not_above. }
  split; [split|split; [|split]].
  - intros q c Hq. now rewrite (Habove q Hq).
  - intros name. destruct (list_eq_dec string_dec (folder ++ [name]) (log_file folder id)) as [E|N].
    + rewrite E, A2. unfold grown. destruct (df_rows d), (see fs (log_file folder id)) eqn:Es; try easy;
        exfalso; now apply (proj2 U) in Es.
    + rewrite B2, B1 by (easy || apply below_not_above). now apply (proj2 U).
  - intros id'. cbn. destruct (String.eqb_spec id id') as [->|N]; [exact A2|].
    rewrite B2, B1; [easy|apply below_not_above|]. intros E. apply log_file_inj in E. congruence.
  - intros _. exact Habove.
  - intros q Hq Hn. rewrite B2 by apply Hn. apply B1. now apply Hq.
Qed.

Lemma effect_nil folder fs : effect folder [] fs fs.
Proof. split; [easy|]. split; easy. Qed.
Lemma effect_app folder l1 l2 a b c : effect folder l1 a b -> effect folder l2 b c -> effect folder (l1 ++ l2) a c.
Proof.
  intros (A1 & B1 & C1) (A2 & B2 & C2). split; [|split].
  - intros id. rewrite A2, A1. unfold file_after. now rewrite fold_left_app.
  - intros Hl q Hq. destruct l2 as [|e l2].
    + rewrite app_nil_r in Hl. rewrite C2; [now apply B1|easy|]. intros id ->. revert Hq. apply below_not_above.
    + now apply B2.
  - intros q Hq Hn. rewrite C2, C1; auto.
    + intros Hl. apply Hq. now destruct l1.
    + intros Hl. apply Hq. now destruct l1, l2.
Qed.

Lemma save_all_effect folder l : forall w fs tr, usable fs folder ->
  exists fs' es, save_all folder (w, fs, tr) l = (Ok tt, (w, fs', tr ++ es)) /\
    usable fs' folder /\ effect folder l fs fs'.
Proof.
  induction l as [|[id d] l IH]; intros w fs tr U; cbn [save_all].
  - exists fs, []. rewrite app_nil_r. split; [easy|]. split; [easy|apply effect_nil].
  - destruct (save_effect folder fs id d U) as (fs1 & es & E & U1 & F1).
    unfold do_save. rewrite E. destruct (IH w fs1 (tr ++ es) U1) as (fs2 & es2 & E2 & U2 & F2).
    rewrite E2. exists fs2, (es ++ es2). rewrite app_assoc. split; [easy|]. split; [easy|].
    apply (effect_app folder [(id, d)] l fs fs1 fs2); easy.
Qed.

(** ** The steps of a run *)
Lemma emits_app w hs1 L1 w1 hs2 L2 w2 : emits w hs1 L1 w1 -> emits w1 hs2 L2 w2 -> emits w (hs1 ++ hs2) (L1 ++ L2) w2.
Proof.
  induction 1; intros H2; cbn [app]; [exact H2| |].
  - rewrite <- app_assoc. eapply emits_exec; eauto.
  - eapply emits_other; eauto.
Qed.
Lemma emits_history w hs L w' : emits w hs L w' -> history w hs w'.
Proof.
  induction 1; [constructor| |].
  - econstructor; [|eassumption]. cbn. now rewrite H.
  - econstructor; eassumption.
Qed.
Lemma history_emits w hs w' : history w hs w' -> exists L, emits w hs L w'.
Proof.
  induction 1 as [|w h w1 l w2 H1 _ [L IH]]; [exists []; constructor|].
  destruct h; try (exists L; eapply emits_other; [|exact H1|exact IH]; easy).
  cbn in H1. destruct (execute a w) as [[lg|e] w3] eqn:E; [|easy]. injection H1 as ->.
  exists (lg ++ L). eapply emits_exec; eauto.
Qed.

Lemma emits_stories_shape hs : forall w L w', emits w hs L w' -> (forall h, In h hs -> exists a, h = HExec a) -> shape w w'.
Proof.
  induction hs as [|h hs IH]; intros w L w' H Hh; inversion H; subst; [apply shape_refl| |].
  - apply (shape_trans _ w1).
    + pose proof (execute_shape a w) as S. match goal with E : execute a w = _ |- _ => now rewrite E in S end.
    + eapply IH; [eassumption|]. intros; apply Hh; now right.
  - destruct (Hh h) as [a ->]; [now left|]. exfalso.
    match goal with H : forall a, _ <> _ |- _ => now apply (H a) end.
Qed.
Lemma emits_app_inv hs1 : forall w hs2 L w2, emits w (hs1 ++ hs2) L w2 ->
  exists L1 w1 L2, L = L1 ++ L2 /\ emits w hs1 L1 w1 /\ emits w1 hs2 L2 w2.
Proof.
  induction hs1 as [|h hs1 IH]; intros w hs2 L w2 H; cbn [app] in H.
  - exists [], w, L. split; [easy|]. split; [constructor|easy].
  - inversion H; subst.
    + match goal with H : emits w1 _ _ _ |- _ => apply IH in H; destruct H as (L1 & w3 & L2 & -> & A & B) end.
      exists (l ++ L1), w3, L2. split; [now rewrite app_assoc|]. split; [|easy]. eapply emits_exec; eauto.
    + match goal with H : emits w1 _ _ _ |- _ => apply IH in H; destruct H as (L1 & w3 & L2 & -> & A & B) end.
      exists L1, w3, L2. split; [easy|]. split; [|easy]. eapply emits_other; eauto.
Qed.

Lemma run_stories_effect folder hs : forall w fs tr L w', emits w (map HExec hs) L w' -> usable fs folder ->
  exists fs' es, run_stories folder (w, fs, tr) hs = (Ok tt, (w', fs', tr ++ es)) /\
    usable fs' folder /\ effect folder L fs fs'.
Proof.
  induction hs as [|a hs IH]; intros w fs tr L w' H U; cbn [map] in H; inversion H; subst; cbn [run_stories].
  - exists fs, []. rewrite app_nil_r. split; [easy|]. split; [easy|apply effect_nil].
  - unfold run_story. match goal with E : execute a w = _ |- _ => rewrite E end.
    destruct (save_all_effect folder l w1 fs tr U) as (fs1 & es & E & U1 & F1). rewrite E.
    destruct (IH w1 fs1 (tr ++ es) l' w') as (fs2 & es2 & E2 & U2 & F2); [eassumption|easy|].
    rewrite E2. exists fs2, (es ++ es2). rewrite app_assoc. split; [easy|]. split; [easy|]. eapply effect_app; eauto.
  - exfalso. match goal with H : forall a, _ <> _ |- _ => now apply (H a) end.
Qed.

Lemma step_shape k w L w' : emits w (one_step k) L w' ->
  exists w1, emits w (map HExec (seq 0 k)) L w1 /\ w' = increment_clock w1 /\ shape w w1.
Proof.
  unfold one_step. intros H. apply emits_app_inv in H. destruct H as (L1 & w1 & L2 & -> & A & B).
  inversion B as [| |w0 h w2 hs l w3 Hn Hh Hr]; subst. inversion Hr; subst. cbn in Hh. injection Hh as <-.
  exists w1. rewrite app_nil_r. split; [exact A|]. split; [easy|].
  eapply emits_stories_shape; [exact A|]. intros h Hi. apply in_map_iff in Hi. destruct Hi as (a & <- & _). now exists a.
Qed.

Lemma run_steps_effect folder n : forall w fs tr L w', emits w (steps_of (length (w_stories w)) n) L w' -> usable fs folder ->
  exists fs' es, run_steps n folder (w, fs, tr) = (Ok tt, (w', fs', tr ++ es)) /\
    usable fs' folder /\ effect folder L fs fs'.
Proof.
  induction n as [|n IH]; intros w fs tr L w' H U; cbn [run_steps].
  - unfold steps_of in H. cbn in H. inversion H; subst.
    exists fs, []. rewrite app_nil_r. split; [easy|]. split; [easy|apply effect_nil].
  - unfold steps_of in H. cbn [repeat concat] in H. apply emits_app_inv in H. destruct H as (L1 & w1 & L2 & -> & A & B).
    apply step_shape in A. destruct A as (w2 & A & -> & S).
    destruct (run_stories_effect folder _ w fs tr L1 w2 A U) as (fs1 & es & E & U1 & F1).
    unfold run_step. rewrite E.
    destruct (IH (increment_clock w2) fs1 (tr ++ es) L2 w') as (fs2 & es2 & E2 & U2 & F2); [|easy|].
    { rewrite (proj2 (proj2 (increment_facts w2))), (proj2 (proj2 S)). exact B. }
    rewrite E2. exists fs2, (es ++ es2). rewrite app_assoc. split; [easy|]. split; [easy|]. eapply effect_app; eauto.
Qed.

(** Conversely a run that does not raise is such a history. *)
Lemma save_all_world folder l : forall w fs tr r st, save_all folder (w, fs, tr) l = (r, st) -> fst (fst st) = w.
Proof.
  induction l as [|[id d] l IH]; intros w fs tr r st H; cbn [save_all] in H; [now injection H as _ <-|].
  unfold do_save in H. destruct (apply_events fs _) as [[[[]|e] fs1] es].
  - eapply IH; eauto.
  - now injection H as _ <-.
Qed.
Lemma run_stories_emits folder hs : forall w fs tr w' fs' tr', run_stories folder (w, fs, tr) hs = (Ok tt, (w', fs', tr')) ->
  exists L, emits w (map HExec hs) L w'.
Proof.
  induction hs as [|a hs IH]; intros w fs tr w' fs' tr' H; cbn [run_stories] in H.
  - injection H as <- _ _. exists []. constructor.
  - unfold run_story in H. destruct (execute a w) as [[l|e] w1] eqn:E; [|easy].
    destruct (save_all folder (w1, fs, tr) l) as [[[]|e] [[w2 fs2] tr2]] eqn:E2; [|easy].
    apply save_all_world in E2. cbn in E2. subst w2. apply IH in H. destruct H as [L H].
    exists (l ++ L). cbn [map]. eapply emits_exec; eauto.
Qed.
Lemma run_steps_emits folder n : forall w fs tr w' fs' tr', run_steps n folder (w, fs, tr) = (Ok tt, (w', fs', tr')) ->
  exists L, emits w (steps_of (length (w_stories w)) n) L w'.
Proof.
  induction n as [|n IH]; intros w fs tr w' fs' tr' H; cbn [run_steps] in H.
  - injection H as <- _ _. exists []. constructor.
  - unfold run_step in H.
    destruct (run_stories folder (w, fs, tr) (seq 0 (length (w_stories w)))) as [[[]|e] [[w1 fs1] tr1]] eqn:E; [|easy].
    apply run_stories_emits in E. destruct E as [L1 E1].
    assert (S : shape w w1).
    { eapply emits_stories_shape; [exact E1|]. intros h Hi. apply in_map_iff in Hi. destruct Hi as (a & <- & _). now exists a. }
    apply IH in H. destruct H as [L2 H].
    rewrite (proj2 (proj2 (increment_facts w1))), (proj2 (proj2 S)) in H.
    exists (L1 ++ L2). unfold steps_of. cbn [repeat concat]. eapply emits_app; [|exact H].
    unfold one_step. rewrite <- (app_nil_r L1). eapply emits_app; [exact E1|].
    eapply (emits_other _ HClock); [easy|reflexivity|constructor].
Qed.

Lemma steps_clock k n : forall w L w', emits w (steps_of k n) L w' ->
  c_date (w_clock w') = (c_date (w_clock w) + Z.of_nat n * c_step (w_clock w))%Z /\
  c_step (w_clock w') = c_step (w_clock w) /\ length (w_stories w') = length (w_stories w).
Proof.
  induction n as [|n IH]; intros w L w' H; unfold steps_of in H; cbn [repeat concat] in H.
  - inversion H; subst. split; [lia|easy].
  - apply emits_app_inv in H. destruct H as (L1 & w1 & L2 & -> & A & B).
    apply step_shape in A. destruct A as (w2 & _ & -> & (S1 & S2 & S3)).
    apply IH in B. destruct B as (B1 & B2 & B3). destruct (increment_facts w2) as (I1 & I2 & I3).
    split; [|split; congruence]. rewrite B1, I1, I2, S1, S2. lia.
Qed.

(** ** The files *)
Lemma file_after_some id L : forall c, file_after id L (AFile c) = AFile (c ++ emitted_rows id L).
Proof.
  unfold emitted_rows, frames_of, file_after. induction L as [|[id' d] L IH]; intros c; cbn [fold_left fst snd filter map].
  - now rewrite app_nil_r.
  - destruct (String.eqb id' id); cbn [map filter snd]; [|apply IH].
    unfold grown. destruct (df_rows d) as [|x rows] eqn:Er; [apply IH|]. rewrite IH. cbn [flat_map].
    unfold row_lines. now rewrite app_assoc.
Qed.
Lemma file_after_none id L : file_after id L Nothing = log_content id L.
Proof.
  unfold log_content. induction L as [|[id' d] L IH]; [easy|].
  unfold file_after, frames_of, emitted_rows in *. cbn [fold_left fst snd filter map].
  destruct (String.eqb id' id) eqn:Ei; cbn [map filter snd]; [|rewrite IH; unfold frames_of; cbn; now rewrite Ei].
  unfold grown at 2. destruct (df_rows d) as [|x rows] eqn:Er.
  - rewrite IH. unfold frames_of. cbn. rewrite Ei. cbn. now rewrite Er.
  - change (fold_left _ L (AFile ?c)) with (file_after id L (AFile c)).
    rewrite file_after_some. unfold emitted_rows, frames_of. cbn [filter fst]. rewrite Ei. cbn [map filter snd].
    rewrite Er. reflexivity.
Qed.

(** ** The writes only add lines *)
Lemma prefix_refl a p : file_prefix a a p.
Proof. intros c H. exists []. now rewrite app_nil_r. Qed.
Lemma prefix_trans a b c p : file_prefix a b p -> file_prefix b c p -> file_prefix a c p.
Proof.
  intros H1 H2 x Hx. destruct (H1 x Hx) as [y Hy]. destruct (H2 _ Hy) as [z Hz]. exists (y ++ z). now rewrite app_assoc.
Qed.

(** [e] only adds: it makes directories, creates a missing file, or appends. *)
Definition adding (fs : node lines) (e : event) : Prop :=
  match e with ECreate p _ => see fs p = Nothing | _ => True end.
Inductive additions : node lines -> list event -> node lines -> Prop :=
| add_nil fs : additions fs [] fs
| add_cons fs e fs1 es fs2 : adding fs e -> apply_event fs e = Ok fs1 -> additions fs1 es fs2 ->
    additions fs (e :: es) fs2.

Lemma additions_app fs es1 fs1 es2 fs2 : additions fs es1 fs1 -> additions fs1 es2 fs2 -> additions fs (es1 ++ es2) fs2.
Proof. induction 1; intros H2; cbn; [easy|]. econstructor; eauto. Qed.
Lemma additions_app_inv es1 : forall fs es2 fs2, additions fs (es1 ++ es2) fs2 ->
  exists fs1, additions fs es1 fs1 /\ additions fs1 es2 fs2.
Proof.
  induction es1 as [|e es1 IH]; intros fs es2 fs2 H; cbn [app] in H.
  - exists fs. split; [constructor|easy].
  - inversion H; subst.
    match goal with H : additions _ (es1 ++ es2) _ |- _ => apply IH in H; destruct H as (fs3 & A & B) end. exists fs3. split; [|easy]. econstructor; eauto.
Qed.
Lemma additions_apply fs es fs' : additions fs es fs' -> apply_events fs es = (Ok tt, fs', es).
Proof. induction 1 as [|fs e fs1 es fs2 A E H IH]; [easy|]. cbn. now rewrite E, IH. Qed.

Lemma event_prefix fs e fs' p : adding fs e -> apply_event fs e = Ok fs' -> file_prefix fs fs' p.
Proof.
  intros Ha E c Hc. destruct e as [q|q x|q x]; cbn in *.
  - destruct (makedirs_see _ _ _ E) as (A & B & D). exists []. rewrite app_nil_r.
    rewrite D; [easy|]. intros Hp.
    now apply (makedirs_through _ _ _ E p c) in Hp.
  - apply write_see in E. destruct E as (A & B & D). destruct (list_eq_dec string_dec p q) as [->|N]; [congruence|].
    exists []. rewrite app_nil_r. now rewrite D.
  - apply bind_ok in E. destruct E as (old & E1 & E2). apply read_see in E1. apply write_see in E2.
    destruct E2 as (A & B & D). destruct (list_eq_dec string_dec p q) as [->|N].
    + exists x. rewrite E1 in Hc. injection Hc as <-. exact B.
    + exists []. rewrite app_nil_r. now rewrite D.
Qed.

Lemma additions_prefix fs es fs' p : additions fs es fs' -> file_prefix fs fs' p.
Proof.
  induction 1 as [|fs e fs1 es fs2 A E H IH]; [apply prefix_refl|].
  eapply prefix_trans; [|exact IH]. eapply event_prefix; eauto.
Qed.

Lemma cut_event fs e e' fs1 : cut e e' -> adding fs e -> apply_event fs e = Ok fs1 ->
  exists fs', apply_event fs e' = Ok fs' /\ forall p, file_prefix fs' fs1 p.
Proof.
  intros Hc Ha E. destruct Hc as [p c c1 c2 ->|p c c1 c2 ->]; cbn in *.
  - assert (exists fs', write_file fs p c1 = Ok fs') as [fs' E'].
    { clear Ha. unfold write_file in *. destruct (lookup fs p) as [[x|es]|]; try easy;
      clear -E; revert fs fs1 E; induction p as [|a p IH]; intros fs fs1 E; try easy;
      destruct fs as [x0|es]; try (destruct p; easy); destruct p as [|b p]; try (cbn; eauto; fail);
      rewrite insert_cons in * by easy; destruct (dget a es) as [k|]; try easy;
      apply bind_ok in E; destruct E as (k' & E1 & E2); destruct (IH _ _ E1) as [k2 E3]; rewrite E3; cbn; eauto. }
    exists fs'. split; [easy|]. intros q x Hx. apply write_see in E, E'. destruct E as (_ & B & D), E' as (_ & B' & D').
    destruct (list_eq_dec string_dec q p) as [->|N].
    + exists c2. rewrite B' in Hx. injection Hx as <-. exact B.
    + exists []. rewrite app_nil_r. rewrite D by easy. now rewrite D' in Hx.
  - apply bind_ok in E. destruct E as (old & E1 & E2). rewrite E1. cbn [bind].
    assert (exists fs', write_file fs p (old ++ c1) = Ok fs') as [fs' E'].
    { clear E1 Ha. rename E2 into E. unfold write_file in *. destruct (lookup fs p) as [[x|es]|]; try easy;
      clear -E; revert fs fs1 E; induction p as [|a p IH]; intros fs fs1 E; try easy;
      destruct fs as [x0|es]; try (destruct p; easy); destruct p as [|b p]; try (cbn; eauto; fail);
      rewrite insert_cons in * by easy; destruct (dget a es) as [k|]; try easy;
      apply bind_ok in E; destruct E as (k' & E1 & E2); destruct (IH _ _ E1) as [k2 E3]; rewrite E3; cbn; eauto. }
    exists fs'. split; [easy|]. intros q x Hx. apply write_see in E2, E'. destruct E2 as (_ & B & D), E' as (_ & B' & D').
    destruct (list_eq_dec string_dec q p) as [->|N].
    + exists c2. rewrite B' in Hx. injection Hx as <-. now rewrite B, app_assoc.
    + exists []. rewrite app_nil_r. rewrite D by easy. now rewrite D' in Hx.
Qed.

(** saving logs only adds, whether or not it succeeds *)
Lemma apply_events_additions es : forall fs r fs' tr, apply_events fs es = (r, fs', tr) ->
  (forall e fs1 l1 l2, es = l1 ++ e :: l2 -> additions fs l1 fs1 -> adding fs1 e) -> additions fs tr fs'.
Proof.
  induction es as [|e es IH]; intros fs r fs' tr H Ha; cbn in H.
  - injection H as _ <- <-. constructor.
  - destruct (apply_event fs e) as [fs1|] eqn:E; [|injection H as _ <- <-; constructor].
    destruct (apply_events fs1 es) as [[r1 fs2] d] eqn:E2. injection H as _ <- <-.
    assert (A : adding fs e) by (apply (Ha e fs [] es); [easy|constructor]).
    econstructor; [exact A|exact E|]. eapply IH; [exact E2|].
    intros e' f1 l1 l2 -> Hl. apply (Ha e' f1 (e :: l1) l2); [easy|]. econstructor; eauto.
Qed.
Lemma save_additions folder fs id d r fs' tr : apply_events fs (save_logs folder fs id d) = (r, fs', tr) -> additions fs tr fs'.
Proof.
  intros H. eapply apply_events_additions; [exact H|]. intros e fs1 l1 l2 Hl Hadd.
  unfold save_logs in Hl. destruct e as [p|p c|p c]; try exact I. cbn.
  assert (Ec : p = log_file folder id /\ path_exists fs p = false /\ (l1 = [] \/ l1 = [EMakedirs folder])).
  { destruct (path_exists fs folder), (df_rows d), (path_exists fs (log_file folder id)) eqn:Ex; cbn in Hl;
      destruct l1 as [|a [|b l1]]; try discriminate; try (injection Hl; intros; discriminate);
      try (injection Hl; intros; subst; auto; fail);
      injection Hl; intros; try discriminate; destruct l1; discriminate. }
  destruct Ec as (-> & Ex & Hl1). apply path_missing_see in Ex.
  destruct Hl1 as [->| ->]; inversion Hadd; subst; [exact Ex|].
  match goal with H : additions _ [] _ |- _ => inversion H; subst end.
  match goal with H : apply_event _ (EMakedirs _) = _ |- _ => cbn in H; apply makedirs_see in H; destruct H as (_ & _ & H); rewrite H end;
    [exact Ex|apply below_not_above].
Qed.
Lemma save_all_additions folder l : forall w fs tr r w' fs' tr', save_all folder (w, fs, tr) l = (r, (w', fs', tr')) ->
  exists es, tr' = tr ++ es /\ additions fs es fs'.
Proof.
  induction l as [|[id d] l IH]; intros w fs tr r w' fs' tr' H; cbn [save_all] in H.
  - injection H as _ _ <- <-. exists []. rewrite app_nil_r. split; [easy|constructor].
  - unfold do_save in H. destruct (apply_events fs (save_logs folder fs id d)) as [[[[]|e] fs1] es] eqn:E;
      apply save_additions in E.
    + apply IH in H. destruct H as (es2 & -> & H). exists (es ++ es2). rewrite app_assoc. split; [easy|].
      eapply additions_app; eauto.
    + injection H as _ _ <- <-. now exists es.
Qed.
Lemma run_stories_additions folder hs : forall w fs tr r w' fs' tr', run_stories folder (w, fs, tr) hs = (r, (w', fs', tr')) ->
  exists es, tr' = tr ++ es /\ additions fs es fs'.
Proof.
  induction hs as [|a hs IH]; intros w fs tr r w' fs' tr' H; cbn [run_stories] in H.
  - injection H as _ _ <- <-. exists []. rewrite app_nil_r. split; [easy|constructor].
  - unfold run_story in H. destruct (execute a w) as [[l|e] w1] eqn:E.
    + destruct (save_all folder (w1, fs, tr) l) as [[[]|e] [[w2 fs2] tr2]] eqn:E2; apply save_all_additions in E2;
        destruct E2 as (es & -> & A).
      * apply IH in H. destruct H as (es2 & -> & H). exists (es ++ es2). rewrite app_assoc. split; [easy|].
        eapply additions_app; eauto.
      * injection H as _ _ <- <-. now exists es.
    + injection H as _ _ <- <-. exists []. rewrite app_nil_r. split; [easy|constructor].
Qed.
Lemma run_steps_additions folder n : forall w fs tr r w' fs' tr', run_steps n folder (w, fs, tr) = (r, (w', fs', tr')) ->
  exists es, tr' = tr ++ es /\ additions fs es fs'.
Proof.
  induction n as [|n IH]; intros w fs tr r w' fs' tr' H; cbn [run_steps] in H.
  - injection H as _ _ <- <-. exists []. rewrite app_nil_r. split; [easy|constructor].
  - unfold run_step in H. destruct (run_stories folder (w, fs, tr) _) as [[[]|e] [[w2 fs2] tr2]] eqn:E2;
      apply run_stories_additions in E2; destruct E2 as (es & -> & A).
    + apply IH in H. destruct H as (es2 & -> & H). exists (es ++ es2). rewrite app_assoc. split; [easy|].
      eapply additions_app; eauto.
    + injection H as _ _ <- <-. now exists es.
Qed.
