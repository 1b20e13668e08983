(** Properties of runs and of log files. *)
From Coq Require Import Permutation.
From Verif Require Import Base BaseFacts Rng Utils UtilsFacts Relationship RelationshipFacts Frame Gens Clock
  Attribute AttributeFacts World Story Ops OpsFacts SpecOps OpsProps OpsColumns Fs Circus SpecStory StoryFacts StoryExec StoryProps SpecFs FsFacts SpecCircus CircusFacts.

(** ** Number of steps *)
Lemma n_iterations_covers c duration : (0 < c_step c)%Z ->
  exists z, n_iterations c duration = Ok z /\ covers (c_step c) duration (Z.to_nat z).
Proof.
  intros Hs. unfold n_iterations. destruct (Z.eqb_spec (c_step c) 0); [lia|].
  eexists. split; [reflexivity|]. set (z := (- (- duration / c_step c))%Z).
  pose proof (Z.div_mod (- duration) (c_step c)) as D. pose proof (Z.mod_pos_bound (- duration) (c_step c) Hs) as B.
  assert (Hz : (duration <= z * c_step c < duration + c_step c)%Z) by (unfold z; nia).
  split.
  - destruct (Z.le_gt_cases 0 z); [rewrite Z2Nat.id by lia; lia|]. nia.
  - intros m Hm. assert (z <= Z.of_nat m)%Z by nia. lia.
Qed.
Lemma covers_unique step duration n m : covers step duration n -> covers step duration m -> n = m.
Proof. intros (A & B) (A' & B'). specialize (B m A'). specialize (B' n A). lia. Qed.

(** ** The start of a run *)
Lemma start_spec duration folder del w fs r st : run duration folder del w fs = (r, st) -> folder <> [] ->
  (0 < c_step (w_clock w))%Z ->
  exists n fs0, covers (c_step (w_clock w)) duration n /\ cleaned fs folder del fs0 /\
    (((see fs folder = Nothing \/ del = true) /\ run_steps n folder (w, fs0, []) = (r, st)) \/
     (see fs folder <> Nothing /\ del = false /\ r = Err OSError /\ st = (w, fs, []))).
Proof.
  intros H Hf Hs. unfold run in H. destruct (n_iterations_covers (w_clock w) duration Hs) as (z & E & Hc). rewrite E in H.
  exists (Z.to_nat z). destruct (path_exists fs folder) eqn:Ex.
  - apply path_exists_see in Ex. destruct del.
    + destruct (ensure_non_existing_spec fs folder Hf) as (fs0 & E0 & A & B). rewrite E0 in H.
      exists fs0. split; [exact Hc|]. split; [right; right; auto|]. left. auto.
    + exists fs. split; [exact Hc|]. split; [right; left; auto|]. right. injection H as <- <-. auto.
  - apply path_missing_see in Ex. exists fs. split; [exact Hc|]. split; [now left|]. left. auto.
Qed.

Lemma root_exists (fs : node lines) : see fs [] <> Nothing.
Proof. now destruct fs. Qed.

Lemma creatable_usable fs folder : creatable fs folder -> usable fs folder.
Proof. intros [A B]. split; [exact B|]. intros name E. rewrite see_none_app in E; easy. Qed.

Lemma startable_start fs folder del fs0 : startable fs folder del -> cleaned fs folder del fs0 ->
  folder <> [] /\ (see fs folder = Nothing \/ del = true) /\ creatable fs0 folder.
Proof.
  intros [S|(N & S & D)] C.
  - destruct C as [(A & ->)|[(A & _)|(A & _)]]; [|destruct S; contradiction..].
    split; [intros ->; now apply root_exists in A|]. auto.
  - split; [exact N|]. split; [auto|]. destruct C as [(A & _)|[(_ & B & _)|(A & B & C1 & C2)]]; [contradiction|congruence|].
    split; [apply C1; exists []; now rewrite app_nil_r|]. intros q c Hq E.
    destruct Hq as [r ->]. destruct r as [|x r].
    + rewrite app_nil_r in C1. rewrite C1 in E; [easy|]. exists []. now rewrite app_nil_r.
    + rewrite C2 in E.
      * rewrite (see_above fs q (x :: r)) in E; easy.
      * intros [t Ht]. apply (f_equal (@length string)) in Ht. rewrite !app_length in Ht. cbn in Ht. lia.
Qed.

(** ** C19 *)
Lemma run_history duration folder del w fs w' fs' tr :
  run duration folder del w fs = (Ok tt, (w', fs', tr)) -> folder <> [] -> (0 < c_step (w_clock w))%Z ->
  exists n, covers (c_step (w_clock w)) duration n /\
    history w (steps_of (length (w_stories w)) n) w' /\
    c_date (w_clock w') = (c_date (w_clock w) + Z.of_nat n * c_step (w_clock w))%Z.
Proof.
  intros H Hf Hs. destruct (start_spec _ _ _ _ _ _ _ H Hf Hs) as (n & fs0 & Hc & _ & [(_ & R)|(_ & _ & E & _)]); [|easy].
  exists n. split; [exact Hc|]. apply run_steps_emits in R. destruct R as [L R]. split; [eapply emits_history; eauto|].
  now apply steps_clock in R.
Qed.

(** ** C20 *)
Lemma run_files duration folder del w fs n L w' :
  startable fs folder del -> (0 < c_step (w_clock w))%Z -> covers (c_step (w_clock w)) duration n ->
  emits w (steps_of (length (w_stories w)) n) L w' ->
  exists fs' tr, run duration folder del w fs = (Ok tt, (w', fs', tr)) /\
    folder_holds fs' folder L /\
    (see fs' folder = match L with [] => Nothing | _ => ADir end) /\
    (forall q, ~ at_or_above folder q -> ~ at_or_below folder q -> see fs' q = see fs q).
Proof.
  intros St Hs Hc He.
  destruct (run duration folder del w fs) as [r st] eqn:R.
  assert (Hf : folder <> []).
  { destruct St as [(A & _)|(A & _)]; [|exact A]. intros ->. now apply root_exists in A. }
  destruct (start_spec _ _ _ _ _ _ _ R Hf Hs) as (m & fs0 & Hm & Hcl & Hrun).
  rewrite (covers_unique _ _ _ _ Hm Hc) in Hrun.
  destruct (startable_start _ _ _ _ St Hcl) as (_ & Hstart & Hcr).
  destruct Hrun as [(_ & Hrun)|(A & B & _)]; [|destruct Hstart; congruence].
  destruct (run_steps_effect folder n w fs0 [] L w' He (creatable_usable _ _ Hcr)) as (fs' & es & E & U & (F1 & F2 & F3)).
  rewrite E in Hrun. injection Hrun as <- <-. exists fs', es. split; [easy|].
  assert (Below : forall q, at_or_below folder q -> see fs0 q = Nothing).
  { intros q [r' ->]. apply see_none_app. apply Hcr. }
  split; [split; [|split]|split].
  - intros id. change (folder ++ _) with (log_file folder id). rewrite F1, Below by (eexists; reflexivity). apply file_after_none.
  - intros name Hname. rewrite F3; [apply Below; now exists [name]| |].
    + intros _. apply below_not_above.
    + intros id E'. unfold log_file in E'. apply app_inv_head in E'. injection E' as E'. now apply (Hname id).
  - intros a b r'. rewrite F3; [apply Below; now exists (a :: b :: r')| |].
    + intros _. apply below_not_above.
    + intros id E'. unfold log_file in E'. now apply app_inv_head in E'.
  - destruct L as [|e L].
    + rewrite F3; [apply Hcr|easy|]. intros id E'. unfold log_file in E'.
      apply (f_equal (@length string)) in E'. rewrite app_length in E'. cbn in E'. lia.
    + apply F2; [easy|]. exists []. now rewrite app_nil_r.
  - intros q Ha Hb. rewrite F3; [|now intros _|].
    + destruct Hcl as [(_ & ->)|[(_ & _ & ->)|(_ & _ & _ & C)]]; [easy|easy|]. now apply C.
    + intros id ->. apply Hb. now exists [(id ++ ".csv")%string].
Qed.

(** ** C21 *)
Lemma run_crash duration folder del w fs r w' fs' tr :
  run duration folder del w fs = (r, (w', fs', tr)) -> folder <> [] -> (0 < c_step (w_clock w))%Z ->
  exists fs0, cleaned fs folder del fs0 /\
    forall tr1, crash_point tr tr1 -> exists fs1, apply_events fs0 tr1 = (Ok tt, fs1, tr1) /\
      forall p, file_prefix fs1 fs' p.
Proof.
  intros H Hf Hs. destruct (start_spec _ _ _ _ _ _ _ H Hf Hs) as (n & fs0 & _ & Hcl & Hrun).
  exists fs0. split; [exact Hcl|].
  assert (A : additions fs0 tr fs').
  { destruct Hrun as [(_ & R)|(A & B & _ & E)].
    - apply run_steps_additions in R. now destruct R as (es & -> & R).
    - injection E as _ -> ->. destruct Hcl as [(C & _)|[(_ & _ & ->)|(_ & C & _)]]; [contradiction|constructor|congruence]. }
  intros tr1 Hc. destruct Hc as [tr1 tr2|tr1 e e' tr2 Hcut]; apply additions_app_inv in A; destruct A as (fs1 & A1 & A2).
  - exists fs1. split; [now apply additions_apply|]. intros p. eapply additions_prefix; eauto.
  - inversion A2 as [|x1 x2 fs2 x4 x5 Ha He Hr]; subst.
    destruct (cut_event fs1 e e' fs2 Hcut Ha He) as (fs3 & E3 & P3). exists fs3. split.
    + apply additions_apply in A1. revert A1 E3. clear. revert fs0. induction tr1 as [|x tr1 IH]; intros fs0 A1 E3.
      * cbn in *. injection A1 as ->. now rewrite E3.
      * cbn in *. destruct (apply_event fs0 x) as [fx|]; [|easy].
        destruct (apply_events fx tr1) as [[rx fy] dx] eqn:Ey. injection A1 as -> -> ->. now rewrite (IH fx).
    + intros p. eapply prefix_trans; [apply P3|]. eapply additions_prefix; eauto.
Qed.

(** ** C22 *)
Lemma run_refuses duration folder w fs : see fs folder <> Nothing ->
  exists e, run duration folder false w fs = (Err e, (w, fs, [])).
Proof.
  intros H. unfold run. destruct (n_iterations (w_clock w) duration) as [z|e]; [|now exists e].
  apply path_exists_see in H. rewrite H. now exists OSError.
Qed.
Lemma run_deletes duration folder w fs : folder <> [] ->
  exists fs0, (forall q, at_or_below folder q -> see fs0 q = Nothing) /\
    (forall q, ~ at_or_below folder q -> see fs0 q = see fs q) /\
    (run duration folder true w fs = run duration folder false w fs0 \/
     exists e, run duration folder true w fs = (Err e, (w, fs, []))).
Proof.
  intros Hf. destruct (ensure_non_existing_spec fs folder Hf) as (fs0 & E0 & A & B). exists fs0.
  split; [exact A|]. split; [exact B|].
  unfold run. destruct (n_iterations (w_clock w) duration) as [z|e]; [|right; now exists e]. left.
  assert (E1 : path_exists fs0 folder = false) by (apply path_missing_see, A; exists []; now rewrite app_nil_r).
  rewrite E1. destruct (path_exists fs folder) eqn:Ex; [now rewrite E0|].
  unfold ensure_non_existing_dir in E0. unfold path_exists in Ex. destruct (lookup fs folder); [easy|].
  now injection E0 as ->.
Qed.

(** ** C25 *)
Lemma csv_dec name : {id | name = (id ++ ".csv")%string} + {forall id, name <> (id ++ ".csv")%string}.
Proof.
  induction name as [|x name IH].
  - right. intros id E. apply (f_equal String.length) in E. rewrite slen_app in E. cbn in E. lia.
  - destruct (string_dec (String x name) ".csv") as [E|N]; [left; now exists ""%string|].
    destruct IH as [[id ->]|N2]; [left; now exists (String x id)|].
    right. intros [|y id] E; [now apply N|]. injection E as <- E. now apply (N2 id).
Qed.
Lemma log_path_dec folder q : {id | q = log_file folder id} + {forall id, q <> log_file folder id}.
Proof.
  destruct (list_eq_dec string_dec (firstn (length folder) q) folder) as [E|N].
  - destruct (skipn (length folder) q) as [|name [|y r]] eqn:S.
    + right. intros id ->. unfold log_file in S. rewrite skipn_app, Nat.sub_diag, skipn_all in S. discriminate.
    + destruct (csv_dec name) as [[id ->]|N2].
      * left. exists id. unfold log_file. rewrite <- (firstn_skipn (length folder) q), E, S. reflexivity.
      * right. intros id ->. unfold log_file in S. rewrite skipn_app, Nat.sub_diag, skipn_all in S. cbn in S.
        injection S as <-. now apply (N2 id).
    + right. intros id ->. unfold log_file in S. rewrite skipn_app, Nat.sub_diag, skipn_all in S. discriminate.
  - right. intros id ->. apply N. unfold log_file. rewrite firstn_app, Nat.sub_diag, firstn_all. cbn. now rewrite app_nil_r.
Qed.

Lemma effect_same folder L1 L2 fs a b : effect folder L1 fs a -> effect folder L2 fs b ->
  (forall id s, file_after id L1 s = file_after id L2 s) -> (L1 = [] <-> L2 = []) -> same_fs a b.
Proof.
  intros (A1 & B1 & C1) (A2 & B2 & C2) Hf Hn q.
  destruct (log_path_dec folder q) as [[id ->]|N]; [now rewrite A1, A2, Hf|].
  destruct (above_dec folder q) as [H|H].
  - destruct L1 as [|e L1].
    + rewrite C1, C2; try easy. now rewrite (proj1 Hn).
    + rewrite B1, B2; try easy. intros E. now apply Hn in E.
  - rewrite C1, C2; auto.
Qed.

Lemma file_after_dict id l : NoDup (dkeys l) -> forall s,
  file_after id l s = match dget id l with Some d => grown s d | None => s end.
Proof.
  unfold file_after. induction l as [|[id' d] l IH]; intros N s; cbn [fold_left dget fst snd]; [easy|].
  inversion N as [|x y N1 N2]; subst. rewrite IH by exact N2.
  change (keqb id id') with (String.eqb id id'). rewrite (String.eqb_sym id id').
  destruct (String.eqb_spec id' id) as [->|Ne]; [|easy].
  assert (E : dget id l = None) by now apply dget_None. now rewrite E.
Qed.
Lemma file_after_perm id l l' s : NoDup (dkeys l) -> Permutation l l' -> file_after id l s = file_after id l' s.
Proof.
  intros N P. assert (N' : NoDup (dkeys l')) by (eapply Permutation_NoDup; [apply Permutation_map, P|exact N]).
  rewrite !file_after_dict by assumption.
  destruct (dget id l) as [d|] eqn:E.
  - apply dget_In in E. apply (Permutation_in _ P) in E. apply In_dget in E; [now rewrite E|exact N'].
  - destruct (dget id l') as [d|] eqn:E'; [|easy]. apply dget_In in E'.
    apply (Permutation_in _ (Permutation_sym P)) in E'. apply In_dget in E'; [congruence|exact N].
Qed.

Lemma reordered_effect folder st hs st2 : reordered_run folder st hs st2 -> forall w fs tr w2 fs2 tr2 L w',
  st = (w, fs, tr) -> st2 = (w2, fs2, tr2) -> emits w hs L w' -> usable fs folder ->
  w2 = w' /\ exists L2, effect folder L2 fs fs2 /\ (forall id s, file_after id L s = file_after id L2 s) /\ (L = [] <-> L2 = []).
Proof.
  induction 1 as [st|w0 fs0 tr0 a l l' w1 st1 hs st2 Hx P S R IH|w0 fs0 tr0 hs st2 R IH];
    intros w fs tr w2 fs2 tr2 L w' E1 E2 He U.
  - subst. injection E2 as <- <- <-. inversion He; subst. split; [easy|]. exists []. split; [apply effect_nil|easy].
  - injection E1 as -> -> ->. inversion He as [|y1 y2 l0 w3 y5 L' y7 Hx' He'|y1 y2 y3 y4 y5 y6 Hno]; subst;
      [|exfalso; now apply (Hno a)].
    rewrite Hx in Hx'. injection Hx' as <- <-.
    destruct (save_all_effect folder l' w1 fs tr U) as (fs1 & es & Es & U1 & F1). rewrite S in Es. injection Es as ->.
    destruct (IH w1 fs1 (tr ++ es) w2 fs2 tr2 L' w' eq_refl eq_refl He' U1) as (-> & L2 & F2 & Hf & Hn).
    split; [easy|]. exists (l' ++ L2). split; [eapply effect_app; eauto|]. split.
    + intros id s. unfold file_after in *. rewrite !fold_left_app. rewrite Hf.
      pose proof (file_after_perm id l l' s (execute_nodup _ _ _ _ Hx) P) as Hp. unfold file_after in Hp. now rewrite Hp.
    + split; intros E; apply app_eq_nil in E; destruct E as [E1 E2].
      * subst l. apply Permutation_nil in P. apply Hn in E2. now subst.
      * subst l'. apply Permutation_sym, Permutation_nil in P. apply Hn in E2. now subst.
  - injection E1 as -> -> ->. inversion He as [| |y1 y2 w1 y4 y5 y6 Hno Hh He']; subst. cbn in Hh. injection Hh as <-.
    eapply IH; eauto.
Qed.

Lemma run_order duration folder w fs w' fs' tr n w2 fs2 tr2 :
  creatable fs folder -> (0 < c_step (w_clock w))%Z -> covers (c_step (w_clock w)) duration n ->
  run duration folder false w fs = (Ok tt, (w', fs', tr)) ->
  reordered_run folder (w, fs, []) (steps_of (length (w_stories w)) n) (w2, fs2, tr2) ->
  w2 = w' /\ same_fs fs2 fs'.
Proof.
  intros Hc Hs Hn H Hr.
  assert (Hf : folder <> []) by (intros ->; destruct Hc as [A _]; now apply root_exists in A).
  destruct (start_spec _ _ _ _ _ _ _ H Hf Hs) as (m & fs0 & Hm & Hcl & Hrun).
  rewrite (covers_unique _ _ _ _ Hm Hn) in Hrun.
  destruct Hcl as [(_ & ->)|[(A & _)|(A & _)]]; [|destruct Hc; contradiction..].
  destruct Hrun as [(_ & Hrun)|(A & _)]; [|destruct Hc; contradiction].
  destruct (run_steps_emits _ _ _ _ _ _ _ _ Hrun) as [L He].
  destruct (run_steps_effect folder n w fs [] L w' He (creatable_usable _ _ Hc)) as (fs1 & es & E & _ & F).
  rewrite E in Hrun. injection Hrun as -> _.
  destruct (reordered_effect _ _ _ _ Hr _ _ _ _ _ _ _ _ eq_refl eq_refl He (creatable_usable _ _ Hc)) as (-> & L2 & F2 & Hfa & Hnil).
  split; [easy|]. eapply effect_same; [exact F2|exact F| |]; [now intros; rewrite Hfa|now symmetry].
Qed.

(** ** C23 *)
Lemma emit_log_cols cols ex d l : emit_log cols ex d = Ok l -> cols <> [] ->
  df_cols l = cols /\ Forall (fun r => length (snd r) = length cols) (df_rows l).
Proof.
  unfold emit_log. intros H Hc. apply bind_ok in H. destruct H as (lg & _ & H). destruct cols as [|c cols]; [easy|].
  unfold select_cols in H. apply bind_ok in H. destruct H as (is & Hi & H). injection H as <-. cbn [df_cols df_rows].
  split; [easy|]. apply Forall_forall. intros r Hr. apply in_map_iff in Hr. destruct Hr as (x & <- & _). cbn [snd].
  rewrite map_length. apply mapr_ok_Forall2 in Hi. symmetry. eapply Forall2_length. exact Hi.
Qed.
Lemma concat_cols d1 d2 cols : df_cols d1 = cols -> df_cols d2 = cols ->
  df_cols (df_concat d1 d2) = cols /\ Forall (fun r => length (snd r) = length cols) (df_rows (df_concat d1 d2)).
Proof.
  intros E1 E2. unfold df_concat. cbn [df_cols df_rows].
  assert (Ec : df_cols d1 ++ filter (fun c => negb (mem c (df_cols d1))) (df_cols d2) = cols).
  { rewrite E1, E2. rewrite filter_nil_iff; [apply app_nil_r|]. intros x Hx.
    apply negb_false_iff. now apply mem_In. }
  rewrite Ec. split; [easy|]. apply Forall_forall. intros [i r] Hr. apply in_combine_r in Hr. cbn [snd].
  apply in_app_iff in Hr. destruct Hr as [Hr|Hr]; apply in_map_iff in Hr; destruct Hr as (x & <- & _);
    unfold project; now rewrite map_length.
Qed.

Definition cols_ok (id : string) (cols : list string) (l : logs) : Prop :=
  forall d, dget id l = Some d -> df_cols d = cols /\ Forall (fun r => length (snd r) = length cols) (df_rows d).

Lemma run_op_cols id cols o : cols <> [] -> (forall c ex, part_of (OpFieldLogger id c ex) o -> c = cols) ->
  forall d w d' l w', run_op o d w = (Ok (d', l), w') -> cols_ok id cols l.
Proof.
  intros Hc.
  assert (Htr : forall m w d' l w', transformed m w = (Ok (d', l), w') -> l = []).
  { intros m w0 d0 l0 w0' H. apply bindM_ok in H. destruct H as (x & w1 & _ & H). now injection H as _ <-. }
  assert (Hse : forall d m w d' l w', side_effect d m w = (Ok (d', l), w') -> l = []).
  { intros d0 m w0 d1 l0 w0' H. apply bindM_ok in H. destruct H as (x & w1 & _ & H). now injection H as _ <-. }
  induction o as [o Hb|ops IH] using op_ind'; intros Hp d w d' l w' H.
  - destruct o; cbn [run_op] in H;
      try (apply Htr in H; subst; easy); try (apply Hse in H; subst; easy).
    + apply bindM_ok in H. destruct H as (x & w1 & E & H). injection H as _ <- _. apply lift_ok in E. destruct E as [E _].
      intros e He. cbn in He. destruct (keqb_spec id log_id) as [<-|N]; [|easy]. injection He as <-.
      assert (cols0 = cols) by (eapply Hp; constructor). subst. eapply emit_log_cols; eauto.
    + exfalso. eapply Hb. reflexivity.
  - cbn [run_op] in H.
    assert (G : forall ops d l0 w d' l w', Forall (fun o => (forall c ex, part_of (OpFieldLogger id c ex) o -> c = cols) ->
                forall d w d' l w', run_op o d w = (Ok (d', l), w') -> cols_ok id cols l) ops ->
                (forall o c ex, In o ops -> part_of (OpFieldLogger id c ex) o -> c = cols) -> cols_ok id cols l0 ->
                run_list run_op ops d l0 w = (Ok (d', l), w') -> cols_ok id cols l).
    { clear. induction ops as [|o ops IHo]; intros d l0 w d' l w' HF Hp H0 H; cbn [run_list] in H.
      - now injection H as _ <- _.
      - inversion HF as [|x1 x2 Ho HF']; subst.
        apply bindM_ok in H. destruct H as ([d1 s] & w1 & H1 & H).
        apply bindM_ok in H. destruct H as (m & w2 & Hm & H). apply lift_ok in Hm. destruct Hm as [Hm ->].
        destruct (merge_logs l0 s) as (m0 & M0 & D0). assert (m0 = m) by congruence. subst m0.
        assert (Hs : cols_ok id cols s).
        { eapply Ho; [|exact H1]. intros c ex. apply Hp. now left. }
        eapply IHo; [exact HF'| | |exact H]; [intros o' c ex Hi; apply Hp; now right|].
        intros e He. rewrite D0 in He. destruct (dget id l0) as [a|] eqn:Ea, (dget id s) as [b|] eqn:Eb; cbn in He.
        + injection He as <-. apply concat_cols; [now apply H0|now apply Hs].
        + injection He as <-. now apply H0.
        + injection He as <-. now apply Hs.
        + discriminate. }
    eapply (G ops d [] w); [exact IH| |now intros e He|exact H].
    intros o c ex Hi Hpo. apply (Hp c ex). econstructor; eauto.
Qed.

Lemma execute_cols id cols a w l w' : execute a w = (Ok l, w') -> cols <> [] -> loggers_agree w id cols -> cols_ok id cols l.
Proof.
  intros H Hc Hag. apply execute_ok in H. destruct H as (s & Hs & [(_ & -> & _)|(_ & d' & w1 & w2 & H & _)]); [now intros e He|].
  change (run_op (OpChain (st_ops s)) (init_story_data (st_field s) (due_members s)) (unforced a s w) = (Ok (d', l), w1)) in H.
  eapply run_op_cols; [exact Hc| |exact H]. intros c ex Hp. inversion Hp as [|ops o' Hi Hpo]; subst. eapply Hag; eauto.
Qed.

Lemma agree_kept w h id cols : loggers_agree w id cols -> loggers_agree (snd (happen h w)) id cols.
Proof.
  intros H a s o c ex Hs Ho Hp. destruct (happen_static h w) as [Len S].
  destruct (nth_error (w_stories w) a) as [s0|] eqn:E0.
  - destruct (S a s0 E0) as (s' & E' & St). rewrite Hs in E'. injection E' as <-.
    destruct St as (_&_&_&_&_&_&_&Eo&_). rewrite Eo in Ho. eapply H; eauto.
  - apply nth_error_None in E0. assert (a < length (w_stories (snd (happen h w)))) by (apply nth_error_Some; congruence). lia.
Qed.

Lemma emits_cols id cols hs : forall w L w', emits w hs L w' -> cols <> [] -> loggers_agree w id cols ->
  Forall (fun d => df_cols d = cols /\ Forall (fun r => length (snd r) = length cols) (df_rows d)) (frames_of id L).
Proof.
  induction hs as [|h hs IH]; intros w L w' H Hc Hag.
  - inversion H; subst. constructor.
  - inversion H as [|y1 a l w1 y5 L' y7 Hx He|y1 y2 w1 y4 y5 y6 Hno Hh He]; subst.
    + assert (Hk : cols_ok id cols l) by (eapply execute_cols; eauto).
      assert (Hag1 : loggers_agree w1 id cols).
      { pose proof (agree_kept w (HExec a) id cols Hag) as K. cbn in K. now rewrite Hx in K. }
      unfold frames_of. rewrite filter_app, map_app, filter_app. apply Forall_app. split; [|eapply IH; eauto].
      apply Forall_forall. intros d Hd. apply filter_In in Hd. destruct Hd as [Hd _]. apply in_map_iff in Hd.
      destruct Hd as ([id' d0] & E & Hd). cbn in E. subst d0. apply filter_In in Hd. destruct Hd as [Hd Ei]. cbn in Ei.
      apply String.eqb_eq in Ei. subst id'. apply Hk. apply In_dget; [now apply (execute_nodup _ _ _ _ Hx)|exact Hd].
    + eapply IH; [exact He|exact Hc|]. pose proof (agree_kept w h id cols Hag) as K. now rewrite Hh in K.
Qed.

Lemma aligned_content id cols L : 
  Forall (fun d => df_cols d = cols /\ Forall (fun r => length (snd r) = length cols) (df_rows d)) (frames_of id L) ->
  log_content id L = Nothing \/
  log_content id L = AFile (map VStr cols :: emitted_rows id L) /\ Forall (fun row => length row = length cols) (emitted_rows id L).
Proof.
  unfold log_content. intros H. destruct (frames_of id L) as [|d l] eqn:E; [now left|]. right.
  split; [rewrite Forall_forall in H; destruct (H d (or_introl eq_refl)) as [-> _]; reflexivity|]. unfold emitted_rows. rewrite E.
  apply Forall_forall. intros row Hr. apply in_flat_map in Hr. destruct Hr as (d0 & Hd & Hr).
  rewrite Forall_forall in H. destruct (H _ Hd) as [_ F]. apply in_map_iff in Hr. destruct Hr as (r & <- & Hr).
  rewrite Forall_forall in F. now apply F.
Qed.

Lemma run_aligned duration folder del w fs w' fs' tr id cols :
  run duration folder del w fs = (Ok tt, (w', fs', tr)) -> startable fs folder del -> (0 < c_step (w_clock w))%Z ->
  cols <> [] -> loggers_agree w id cols ->
  exists n L, covers (c_step (w_clock w)) duration n /\ emits w (steps_of (length (w_stories w)) n) L w' /\
    (forall d, In d (frames_of id L) -> df_cols d = cols) /\
    Forall (fun row => length row = length cols) (emitted_rows id L) /\
    (see fs' (folder ++ [(id ++ ".csv")%string]) = Nothing /\ emitted_rows id L = [] \/
     see fs' (folder ++ [(id ++ ".csv")%string]) = AFile (map VStr cols :: emitted_rows id L)).
Proof.
  intros H St Hs Hc Hag.
  assert (Hf : folder <> []).
  { destruct St as [(A & _)|(A & _)]; [|exact A]. intros ->. now apply root_exists in A. }
  destruct (start_spec _ _ _ _ _ _ _ H Hf Hs) as (n & fs0 & Hm & Hcl & [(_ & Hrun)|(_ & _ & E & _)]); [|easy].
  destruct (run_steps_emits _ _ _ _ _ _ _ _ Hrun) as [L He].
  destruct (run_files duration folder del w fs n L w' St Hs Hm He) as (fs1 & tr1 & E & (Hold & _) & _).
  rewrite H in E. injection E as <- <-.
  pose proof (emits_cols id cols _ _ _ _ He Hc Hag) as F. exists n, L. split; [exact Hm|]. split; [exact He|].
  split; [intros d Hd; rewrite Forall_forall in F; now apply F|].
  rewrite Hold. unfold log_content. pose proof (aligned_content id cols L F) as Al. unfold log_content in Al.
  destruct (frames_of id L) as [|d l] eqn:Ef.
  - unfold emitted_rows. rewrite Ef. split; [constructor|]. left. now split.
  - destruct Al as [A|[A B]]; [discriminate|]. split; [exact B|]. right. exact A.
Qed.
