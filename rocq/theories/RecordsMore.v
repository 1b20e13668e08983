(** Consequences: when the records were logged, and how many there are. *)
From Verif Require CircusFacts.
From Verif Require Import Base BaseFacts Rng Utils UtilsFacts Relationship RelationshipFacts SpecRelationship RelationshipProps Frame Gens Clock SpecClock ClockProps
  Attribute SpecAttribute AttributeFacts World Story Ops OpsFacts Fs Helpers HelpersFacts Circus SpecStory StoryFacts StoryExec StoryProps SpecOps OpsProps OpsColumns OpsMore
  SpecWorld WorldProps SpecPopulation GensKept SpecLocal LocalFacts LocalOps LocalCalls CircusProps GeographyLog SpecCircus SpecSupply SupplyFacts SupplyProps
  SpecLedger LedgerProps SpecRecords RecordsGens RecordsProps.
From Coq Require Import Permutation Sorted.

Lemma records_true w id hs L w' : tidy w id -> Forall reachable (w_rels w) -> emits w hs L w' ->
  exists pasts, Forall2 (logged_after w id hs) pasts (records id L) /\ StronglySorted earlier pasts.
Proof.
  intros Td R H. destruct (history_told w id Td hs [] [] w L w' (since_start w R) (emits_nil w) H) as (ps & F & S & _). exists ps. auto.
Qed.

Lemma emits_static w hs L w' : emits w hs L w' -> stories_rel (fun _ => static) w w'.
Proof.
  assert (Tr : forall b s1 s2 s3, (fun _ : nat => static) b s1 s2 -> (fun _ : nat => static) b s2 s3 -> (fun _ : nat => static) b s1 s3) by (intros; eapply static_trans; eauto).
  induction 1 as [w|w a l w1 hs l' w2 Hx _ IH|w h w1 hs l w2 _ Hh _ IH].
  - apply sr_refl. intros; apply static_refl.
  - eapply (sr_trans (fun _ => static)); [exact Tr| |exact IH]. pose proof (own_static a w) as K. now rewrite Hx in K.
  - eapply (sr_trans (fun _ => static)); [exact Tr| |exact IH]. pose proof (happen_static h w) as K. now rewrite Hh in K.
Qed.
Lemma acts_member w hs L w' a s i : emits w hs L w' -> nth_error (w_stories w) a = Some s -> acts_now w' a i -> In i (st_ids s).
Proof.
  intros H Es (s' & Es' & Hi). destruct (emits_static _ _ _ _ H) as [_ St]. destruct (St _ _ Es) as (s1 & Es1 & T). assert (s1 = s') by congruence. subst s1.
  destruct T as (_ & _ & _ & _ & _ & _ & _ & _ & Ti). rewrite <- Ti. unfold due_members in Hi. apply in_map_iff in Hi as (x & <- & Hx). apply filter_In in Hx as [Hx _].
  apply in_map_iff. now exists x.
Qed.

(** ** Timestamps *)
Definition starts_at (w : world) (past : list happening) : Z := (c_date (w_clock w) + Z.of_nat (ticks past) * Clock.c_step (w_clock w))%Z.

Lemma logged_time w id hs c random fmt past r : timestamped w id c random fmt -> logged_after w id hs past r ->
  exists t, r c = fmt t /\ if random then (starts_at w past <= t < starts_at w past + Clock.c_step (w_clock w))%Z else t = starts_at w past.
Proof.
  intros T (a & future & L1 & w1 & Eh & H & s & before & names & ex & afterwards & row & k & Es & Eo & Hc & _ & F & _).
  destruct (T _ _ _ _ _ _ Es Eo) as (Hin & Hn & Hx). rewrite Forall_forall in F. specialize (F _ Hin). unfold tells in *; cbn [tells_given] in F.
  destruct F as (t & E & B). destruct (emits_date _ _ _ _ H) as [Ed _]. exists t. split.
  - rewrite (Hc c Hn). destruct (mem c ex) eqn:M; [apply mem_In in M; contradiction|exact E].
  - unfold starts_at. rewrite <- Ed. exact B.
Qed.

Lemma ticks_app p q : ticks (p ++ q) = ticks p + ticks q.
Proof. unfold ticks. now rewrite filter_app, app_length. Qed.
Lemma ticks_prefix hs p q f g : hs = p ++ f -> hs = q ++ g -> earlier p q -> ticks p <= ticks q.
Proof.
  intros E1 E2 H. unfold earlier in H.
  assert (Ep : p = firstn (length p) hs) by (rewrite E1, firstn_app, Nat.sub_diag, firstn_O, app_nil_r, firstn_all; reflexivity).
  assert (Eq : q = firstn (length q) hs) by (rewrite E2, firstn_app, Nat.sub_diag, firstn_O, app_nil_r, firstn_all; reflexivity).
  assert (E : q = p ++ firstn (length q - length p) (skipn (length p) hs)).
  { rewrite Eq at 1. rewrite Ep at 1. replace (length q) with (length p + (length q - length p)) at 1 by lia. clear.
    generalize (length p) (length q - length p). intros n m. revert hs. induction n as [|n IH]; intros hs; [reflexivity|]. destruct hs as [|h hs]; cbn; [now destruct m|]. now rewrite IH. }
  rewrite E, ticks_app. lia.
Qed.

Lemma times w id hs c random fmt : (0 < Clock.c_step (w_clock w))%Z -> timestamped w id c random fmt ->
  forall pasts rs, Forall2 (logged_after w id hs) pasts rs -> StronglySorted earlier pasts ->
  exists ts, Forall2 (fun t r => r c = fmt t) ts rs /\
    Forall2 (fun t past => if random then (starts_at w past <= t < starts_at w past + Clock.c_step (w_clock w))%Z else t = starts_at w past) ts pasts /\
    StronglySorted (fun t t' => ((t - c_date (w_clock w)) / Clock.c_step (w_clock w) <= (t' - c_date (w_clock w)) / Clock.c_step (w_clock w))%Z) ts /\
    (random = false -> StronglySorted Z.le ts).
Proof.
  intros Hs T. set (st := Clock.c_step (w_clock w)) in *. set (d0 := c_date (w_clock w)).
  induction 1 as [|p r ps rs Hr F IH]; intros S.
  - exists []. repeat constructor.
  - inversion S as [|? ? S' Hp]; subst. destruct (IH S') as (ts & A & B & D & E). destruct (logged_time _ _ _ _ _ _ _ _ T Hr) as (t & Et & Bt). fold st in Bt.
    assert (St : forall t q, (if random then (starts_at w q <= t < starts_at w q + st)%Z else t = starts_at w q) -> ((t - d0) / st = Z.of_nat (ticks q))%Z).
    { intros u q. unfold starts_at. fold d0 st. intros Hu. symmetry. apply (Z.div_unique _ _ _ (u - d0 - Z.of_nat (ticks q) * st)); [left|lia]. destruct random; lia. }
    assert (Le : Forall2 (fun t' q => (Z.of_nat (ticks p) <= Z.of_nat (ticks q))%Z) ts ps).
    { destruct Hr as (a & fu & L1 & w1 & Eh & _). clear -Hp B F Eh. revert ts B. induction F as [|q r' ps rs Hq F IH]; intros ts B; inversion B; subst; constructor.
      - inversion Hp as [|? ? K _]; subst. destruct Hq as (b & fu' & L2 & w2 & Eh' & _). apply Nat2Z.inj_le. eapply ticks_prefix; [reflexivity|exact Eh'|exact K].
      - inversion Hp; subst. apply IH; auto. }
    exists (t :: ts). split; [constructor; auto|]. split; [constructor; auto|]. split.
    + constructor; [exact D|]. rewrite (St _ _ Bt). clear -Le B St. induction Le; inversion B; subst; constructor; auto. erewrite (St _ _); eauto.
    + intros ->. constructor; [auto|]. clear -Le B Bt Hs. subst t. induction Le; inversion B; subst; constructor; auto. unfold starts_at. fold st. nia.
Qed.

Lemma ticks_steps k n : ticks (steps_of k n) = n.
Proof.
  unfold steps_of. induction n as [|n IH]; [reflexivity|]. cbn [repeat concat]. rewrite ticks_app, IH. clear IH. unfold one_step, ticks. rewrite filter_app, app_length. cbn.
  assert (E : forall m, filter (fun h => match h with HClock => true | _ => false end) (map HExec (seq m k)) = []).
  { induction k as [|k IHk]; intros m; cbn; [reflexivity|]. apply IHk. }
  rewrite E. reflexivity.
Qed.
Lemma steps_last k n : n > 0 -> exists hs, steps_of k n = hs ++ [HClock].
Proof.
  unfold steps_of. induction n as [|[|n] IH]; intros H; [lia| |].
  - exists (map HExec (seq 0 k)). cbn. apply app_nil_r.
  - destruct IH as [hs E]; [lia|]. cbn [repeat concat] in *. rewrite E. exists (one_step k ++ hs). now rewrite app_assoc.
Qed.
Lemma ticks_before_exec k n p a f : steps_of k n = p ++ HExec a :: f -> ticks p < n.
Proof.
  intros E. destruct n as [|n]; [destruct p; discriminate|]. destruct (steps_last k (Datatypes.S n) ltac:(lia)) as [hs El].
  assert (exists f', f = f' ++ [HClock]) as [f' ->].
  { destruct f as [|x f0] using rev_ind; [|clear IHf0].
    - rewrite El in E. apply app_inj_tail in E as [_ E]. discriminate.
    - rewrite El in E. change (HExec a :: f0 ++ [x]) with ((HExec a :: f0) ++ [x]) in E. rewrite app_assoc in E. apply app_inj_tail in E as [_ <-]. eauto. }
  pose proof (ticks_steps k (Datatypes.S n)) as K. rewrite E, ticks_app in K. change (HExec a :: f' ++ [HClock]) with ((HExec a :: f') ++ [HClock]) in K. rewrite ticks_app in K.
  cbn in K. lia.
Qed.

(** ** One record per act *)
Section Acts.
  Context (w0 : world) (id : string) (a : nat) (member : string) (one : one_record_per_act w0 id a member) (distinct : distinct_members w0).

  Lemma sublist_all {A} (l m : list A) : sublist l m -> NoDup m -> (forall x, In x m -> In x l) -> l = m.
  Proof.
    induction 1 as [|x l m H IH|x l m H IH]; intros N Hin; [reflexivity| |].
    - exfalso. inversion N as [|? ? Hx _]; subst. apply Hx. eapply sublist_In; [exact H|]. apply Hin. now left.
    - inversion N as [|? ? Hx N']; subst. f_equal. apply IH; [exact N'|]. intros y Hy. destruct (Hin y (or_intror Hy)) as [<-|K]; [contradiction|exact K].
  Qed.
  Lemma adds_cells_old d d' f name kept vs : adds_cells d d' name kept vs -> rectangular d -> In f (df_cols d) -> ~ In name (df_cols d) ->
    column_of d' f = map (fun row => cell (df_cols d) (snd row) f) kept.
  Proof.
    intros A R Hf Hn. pose proof (adds_cells_listed _ _ _ _ _ _ A R Hf Hn) as E. apply (f_equal (map fst)) in E.
    unfold listed in E. rewrite map_map in E. unfold column_of. cbn [fst] in E. rewrite E. destruct A as (_ & _ & Hl & _). clear E.
    revert vs Hl. induction kept as [|row kept IH]; intros [|v vs] Hl; cbn in *; try discriminate; [reflexivity|]. f_equal. apply IH. now injection Hl.
  Qed.

  Lemma keep_member o new d w d' l w' m : brings o new -> keeps_rows o = true -> Forall reachable (w_rels w) -> run_op o d w = (Ok (d', l), w') -> rectangular d -> NoDup new ->
    (forall c, In c new -> ~ In c (df_cols d)) -> In m (df_cols d) -> NoDup (column_of d m) -> column_of d' m = column_of d m.
  Proof.
    intros B K Re H R Nn Hf Hm Nd.
    assert (Full : forall name kept vs, adds_cells d d' name kept vs -> ~ In name (df_cols d) -> (forall row, In row (df_rows d) -> In row kept) -> column_of d' m = column_of d m).
    { intros name kept vs A Hn Hk. rewrite (adds_cells_old _ _ _ _ _ _ A R Hm Hn). destruct A as (_ & Hs & _).
      now rewrite (sublist_all kept (df_rows d) Hs (NoDup_map_inv _ _ Nd) Hk). }
    destruct B as [A|(r & from & named & -> & _)]; [|discriminate].
    destruct (drops_rows o) eqn:Dr.
    - destruct o; cbn [keeps_rows drops_rows] in K, Dr; try discriminate; try (rewrite Dr in K; discriminate).
      + apply andb_true_iff in K as [K1 K2]. apply negb_true_iff in K1, K2. subst one_to_one discard. cbn in A. subst new. specialize (Hf _ (or_introl eq_refl)).
        assert (exists rl, nth_error (w_rels w) rel = Some rl) as [rl Hrl].
        { cbn [run_op] in H. unfold transformed in H. mstep H. rename E into H1. mstep H1. apply lift_ok in E as [E ->]. destruct (reserved named_as); [discriminate|]. mstep H1. unfold call_select_one in E0.
          mstep E0. apply deref_ok in E1 as [E1 _]. eauto. }
        destruct (select_one_op _ _ _ _ _ _ _ _ _ _ _ _ _ H Hrl (Forall_nth_error _ _ _ _ Re Hrl) Hf) as (rl' & kept & tos & _ & _ & Ac & _ & Hk & _).
        apply (Full _ _ _ Ac Hf). intros row Hr. apply (Hk eq_refl row Hr). now left.
      + apply negb_true_iff in K. subst discard. cbn in A. subst new. specialize (Hf _ (or_introl eq_refl)).
        assert (exists rl, nth_error (w_rels w) rel = Some rl) as [rl Hrl].
        { cbn [run_op] in H. unfold transformed in H. mstep H. rename E into H1. mstep H1. apply lift_ok in E as [E ->]. mstep H1. apply lift_ok in E0 as [E0 ->].
          mstep H1. apply lift_ok in E1 as [E1 ->]. destruct (reserved named_as); [discriminate|]. mstep H1. unfold call_select_many in E2.
          mstep E2. apply deref_ok in E3 as [E3 _]. eauto. }
        destruct (select_many_op _ _ _ _ _ _ _ _ _ _ _ _ H Hrl (Forall_nth_error _ _ _ _ Re Hrl) Hf) as (rl' & kept & tos & ns & _ & _ & Ac & _ & _ & Hk & _).
        apply (Full _ _ _ Ac Hf). intros row Hr. now apply Hk.
    - destruct (other_restricts _ _ _ _ _ _ _ A H R Nn Hf) as (_ & kept & (_ & _ & Hk) & Kd). rewrite (proj2 (Hk m Hm)), (Kd Dr). reflexivity.
  Qed.

  Lemma emit_members names d lg c : emit_log names [] d = Ok lg -> In c (df_cols d) -> (names = [] \/ In c names) -> column_of lg c = column_of d c.
  Proof.
    unfold emit_log. cbn [bind]. intros H Hc Hn. destruct names as [|n ns]; [now injection H as <-|]. destruct Hn as [C|Hn]; [discriminate|].
    apply select_cols_cells in H as [Ec Er]. unfold column_of. rewrite Er, Ec, map_map. apply map_ext. intros row. cbn [snd]. now apply cell_map_self.
  Qed.

  Lemma keep_members ops cols cols' m : builds_up cols ops cols' -> Forall (fun o => keeps_rows o = true) ops -> Forall (of_story w0) ops -> In m cols ->
    forall d l0 w d' l w', df_cols d = cols -> rectangular d -> NoDup (column_of d m) -> since w0 w -> run_list run_op ops d l0 w = (Ok (d', l), w') ->
    df_cols d' = cols' /\ In m cols' /\ column_of d' m = column_of d m.
  Proof.
    intros B. induction B as [cols|cols o new ops cols' Br Nn Hf Hr _ IH]; intros Kp Os Hm d l0 w d' l w' Hc Rd Nd S H.
    - cbn [run_list] in H. injection H as <- <- <-. auto.
    - inversion Kp as [|? ? K1 Kp']; subst. inversion Os as [|? ? O1 Os']; subst. apply run_list_step in H as (d1 & l1 & w1 & all & H1 & M & H).
      assert (Ne : df_cols d <> []) by (intros K; rewrite K in Hm; destruct Hm).
      destruct (brings_rows _ _ _ _ _ _ _ Br H1 Rd Nn Hf Ne) as (Hc1 & Rd1 & _).
      pose proof (keep_member _ _ _ _ _ _ _ m Br K1 (sc_reach _ _ S) H1 Rd Nn Hf Hm Nd) as Ek.
      destruct (op_since _ _ _ _ _ _ _ O1 S H1) as [S1 _].
      destruct (IH Kp' Os' (in_or_app _ _ _ (or_introl Hm)) d1 all w1 d' l w' Hc1 Rd1 ltac:(now rewrite Ek) S1 H) as (A1 & A2 & A3).
      split; [exact A1|]. split; [exact A2|]. congruence.
  Qed.

  Lemma exec_members b w l w' : since w0 w -> execute b w = (Ok l, w') ->
    map (fun r => r member) (records id l) = if Nat.eqb b a then match nth_error (w_stories w) a with Some s => due_members s | None => [] end else [].
  Proof.
    intros S H. pose proof (sc_static _ _ S) as [Hl St]. pose proof (CircusFacts.execute_nodup _ _ _ _ H) as Nl. apply execute_ok in H as (s & Es & H).
    pose proof (unforced_since w0 b s w S Es) as Su.
    assert (exists s0, nth_error (w_stories w0) b = Some s0) as [s0 Es0].
    { destruct (nth_error (w_stories w0) b) eqn:E; [eauto|]. apply nth_error_None in E. assert (b < length (w_stories w)) by (apply nth_error_Some; congruence). lia. }
    destruct (St b s0 Es0) as (s' & Es' & T). assert (s' = s) by congruence. subst s'. pose proof T as (_ & _ & Tf & _ & _ & _ & _ & To & Ti).
    destruct one as [(s1 & before & names & afterwards & cols & Es1 & -> & Eo & Wd & Kp & Hn & Q) Other].
    destruct H as [(Ed & -> & _)|(_ & d & w1 & w2 & H1 & _)].
    - destruct (Nat.eqb_spec b a) as [->|]; [|reflexivity]. rewrite Es, Ed. reflexivity.
    - unfold run_chain in H1. unfold records. rewrite (frames_dict id l Nl). destruct (Nat.eqb_spec b a) as [->|Nb].
      + rewrite Es. assert (s1 = s0) by congruence. subst s1. rewrite To, Eo, run_list_app in H1. apply bindM_ok in H1 as ([d1 l1] & v1 & H1 & H2).
        assert (Os : Forall (of_story w0) before) by (apply Forall_forall; intros o Ho; exists a, s0; split; [exact Es0|]; rewrite Eo; apply in_or_app; now left).
        assert (Ei : column_of (init_story_data (st_field s0) (due_members s)) (st_field s0) = due_members s).
        { unfold column_of. cbn [init_story_data df_rows df_cols]. rewrite map_map. cbn [snd cell]. rewrite String.eqb_refl. apply map_id. }
        assert (Nd : NoDup (due_members s)) by (apply NoDup_due; rewrite Ti; exact (distinct a s0 Es0)).
        rewrite Tf in H1. destruct (keep_members before _ cols (st_field s0) Wd Kp Os (or_introl eq_refl) (init_story_data (st_field s0) (due_members s)) _ _ _ _ _ eq_refl (init_rect _ _) ltac:(now rewrite Ei) Su H1) as (Hc & Hin & Ecol).
        rewrite <- Hc in Hin.
        pose proof (list_quiet id before (fun o c ex K => Q o c ex (in_or_app _ _ _ (or_introl K))) _ _ _ _ _ _ H1) as Q1. cbn [dget] in Q1.
        apply run_list_step in H2 as (d2 & l2 & v2 & all & H2 & M & H3). apply logger_data in H2 as (-> & -> & lg & El & ->).
        rewrite (list_quiet id afterwards (fun o c ex K => Q o c ex (in_or_app _ _ _ (or_intror K))) _ _ _ _ _ _ H3).
        destruct (merge_logs l1 [(id, lg)]) as (all0 & M0 & D0). assert (all0 = all) by congruence. subst all0. rewrite D0, Q1. cbn [dget]. rewrite keqb_refl.
        pose proof (emit_members _ _ _ _ El Hin Hn) as Ec. rewrite Ecol in Ec.
        transitivity (column_of lg (st_field s0)).
        * cbn [merged_at]. unfold column_of. destruct (df_rows lg) eqn:Er; [reflexivity|]. cbn [flat_map]. rewrite Er, app_nil_r, map_map. reflexivity.
        * now rewrite Ec.
      + assert (Qb : forall o c ex, In o (st_ops s) -> ~ part_of (OpFieldLogger id c ex) o) by (intros o c ex Ho; apply (Other b s0 o c ex Nb Es0); now rewrite <- To).
        rewrite (list_quiet id _ Qb _ _ _ _ _ _ H1). reflexivity.
  Qed.

  Lemma history_members hs : forall w L w', since w0 w -> emits w hs L w' -> map (fun r => r member) (records id L) = acted a w hs.
  Proof.
    induction hs as [|h hs IH]; intros w L w' T H.
    - inversion H; subst. reflexivity.
    - assert (T1 : since w0 (snd (happen h w))).
      { inversion H as [|y1 b l w1 y5 L' y7 Hx He|y1 y2 w1 y4 y5 y6 Hno Hh He]; subst.
        - cbn [happen]. rewrite Hx. exact (exec_since _ _ _ _ _ T Hx).
        - rewrite Hh. exact (other_since _ _ _ _ Hno Hh T). }
      inversion H as [|y1 b l w1 y5 L' y7 Hx He|y1 y2 w1 y4 y5 y6 Hno Hh He]; subst; cbn [acted].
      + cbn [happen] in T1 |- *. rewrite Hx in T1 |- *. cbn [snd] in T1 |- *. rewrite records_app. refine (eq_trans (map_app _ _ _) (f_equal2 (@app val) _ (IH _ _ _ T1 He))). eapply exec_members; eauto.
      + rewrite Hh in T1 |- *. cbn [snd] in T1 |- *. rewrite (IH _ _ _ T1 He). destruct h as [b| |b ids|b ids|b ids states|b ids]; try reflexivity. now specialize (Hno b).
  Qed.
End Acts.

Lemma acts_recorded w id a member hs L w' : one_record_per_act w id a member -> distinct_members w -> Forall reachable (w_rels w) -> emits w hs L w' ->
  map (fun r => r member) (records id L) = acted a w hs.
Proof. intros O D R. apply (history_members w id a member O D). now apply since_start. Qed.

(** ** Files *)
Lemma builds_list cols ops cols' : builds_up cols ops cols' -> cols <> [] -> forall d l0 w d' l w', df_cols d = cols -> rectangular d ->
  run_list run_op ops d l0 w = (Ok (d', l), w') -> df_cols d' = cols' /\ rectangular d'.
Proof.
  induction 1 as [cols|cols o new ops cols' Br Nn Hf Hr _ IH]; intros Ne d l0 w d' l w' Hc Rd H.
  - cbn [run_list] in H. injection H as <- <- <-. auto.
  - apply run_list_step in H as (d1 & l1 & w1 & all & H1 & M & H). rewrite <- Hc in Hf, Ne.
    destruct (brings_rows _ _ _ _ _ _ _ Br H1 Rd Nn Hf Ne) as (Hc1 & Rd1 & _). eapply IH; [|rewrite Hc1, Hc; reflexivity|exact Rd1|exact H].
    rewrite <- Hc. destruct (df_cols d); [contradiction|discriminate].
Qed.

Lemma header_frames w0 id cols hs : one_header w0 id cols -> forall L w', emits w0 hs L w' ->
  Forall (fun d => df_cols d = cols /\ Forall (fun r => length (snd r) = length cols) (df_rows d)) (frames_of id L).
Proof.
  intros [[Hc Hag]|One]; [intros L w' H; eapply emits_cols; eauto|].
  assert (G : forall hs w L w', stories_rel (fun _ => static) w0 w -> emits w hs L w' ->
    Forall (fun d => df_cols d = cols /\ Forall (fun r => length (snd r) = length cols) (df_rows d)) (frames_of id L)).
  { clear hs. induction hs as [|h hs IH]; intros w L w' T H.
    - inversion H; subst. constructor.
    - assert (T1 : stories_rel (fun _ => static) w0 (snd (happen h w))).
      { eapply (sr_trans (fun _ => static)); [|exact T|apply happen_static]. intros; eapply static_trans; eauto. }
      inversion H as [|y1 b l w1 y5 L' y7 Hx He|y1 y2 w1 y4 y5 y6 Hno Hh He]; subst.
      + cbn [happen] in T1. rewrite Hx in T1. cbn [snd] in T1.
        assert (E : frames_of id (l ++ L') = frames_of id l ++ frames_of id L') by (unfold frames_of; now rewrite filter_app, map_app, filter_app).
        rewrite E. apply Forall_app. split; [|eapply IH; eauto]. clear IH He E T1.
        destruct T as [Hl St]. pose proof (CircusFacts.execute_nodup _ _ _ _ Hx) as Nl. apply execute_ok in Hx as (s & Es & Hx).
        assert (exists s0, nth_error (w_stories w0) b = Some s0) as [s0 Es0].
        { destruct (nth_error (w_stories w0) b) eqn:E; [eauto|]. apply nth_error_None in E. assert (b < length (w_stories w)) by (apply nth_error_Some; congruence). lia. }
        destruct (St b s0 Es0) as (s' & Es' & T). assert (s' = s) by congruence. subst s'. pose proof T as (_ & _ & Tf & _ & _ & _ & _ & To & Ti).
        destruct Hx as [(_ & -> & _)|(_ & d & v1 & v2 & H1 & _)]; [constructor|].
        unfold run_chain in H1. rewrite (frames_dict id l Nl). rewrite To in H1.
        destruct (One b s0 Es0) as [Q|(before & afterwards & Eo & Bu & Q)].
        * rewrite (list_quiet id _ Q _ _ _ _ _ _ H1). constructor.
        * rewrite Eo, run_list_app in H1. apply bindM_ok in H1 as ([d1 l1] & x1 & H1 & H2). rewrite Tf in H1.
          destruct (builds_list _ _ _ Bu ltac:(discriminate) (init_story_data (st_field s0) (due_members s)) _ _ _ _ _ eq_refl (init_rect _ _) H1) as (Hc & Rd).
          pose proof (list_quiet id before (fun o c ex K => Q o c ex (in_or_app _ _ _ (or_introl K))) _ _ _ _ _ _ H1) as Q1. cbn [dget] in Q1.
          apply run_list_step in H2 as (d2 & l2 & x2 & all & H2 & M & H3). apply logger_data in H2 as (-> & -> & lg & El & ->).
          rewrite (list_quiet id afterwards (fun o c ex K => Q o c ex (in_or_app _ _ _ (or_intror K))) _ _ _ _ _ _ H3).
          destruct (merge_logs l1 [(id, lg)]) as (all0 & M0 & D0). assert (all0 = all) by congruence. subst all0. rewrite D0, Q1. cbn [dget]. rewrite keqb_refl. cbn [merged_at].
          cbn [emit_log bind] in El. injection El as <-. destruct (df_rows d1) eqn:Er; [constructor|]. constructor; [|constructor]. split; [exact Hc|].
          apply Forall_forall. intros row Hrow. rewrite <- Hc. now apply Rd.
      + rewrite Hh in T1. cbn [snd] in T1. eapply IH; eauto. }
  intros L w'. apply G. apply sr_refl. intros; apply static_refl.
Qed.

Lemma run_recorded duration folder del w fs w' fs' tr :
  run duration folder del w fs = (Ok tt, (w', fs', tr)) -> startable fs folder del -> (0 < Clock.c_step (w_clock w))%Z ->
  exists n L, covers (Clock.c_step (w_clock w)) duration n /\ emits w (steps_of (length (w_stories w)) n) L w' /\
    forall id cols, one_header w id cols -> recorded fs' folder id = records id L.
Proof.
  intros H St Hs.
  assert (Hf : folder <> []).
  { destruct St as [(A & _)|(A & _)]; [|exact A]. intros ->. now apply root_exists in A. }
  destruct (start_spec _ _ _ _ _ _ _ H Hf Hs) as (n & fs0 & Hm & Hcl & [(_ & Hrun)|(_ & _ & E & _)]); [|easy].
  destruct (CircusFacts.run_steps_emits _ _ _ _ _ _ _ _ Hrun) as [L He].
  destruct (run_files duration folder del w fs n L w' St Hs Hm He) as (fs1 & tr1 & E & (Hold & _) & _).
  rewrite H in E. injection E as <- <-. exists n, L. split; [exact Hm|]. split; [exact He|].
  intros id cols Hag. pose proof (header_frames w id cols _ Hag _ _ He) as F.
  unfold recorded. rewrite Hold. unfold records. destruct (aligned_content _ cols L F) as [A|[A _]].
  - rewrite A. unfold log_content in A. now destruct (frames_of id L).
  - rewrite A, map_map. replace (map (fun x => name_of (VStr x)) cols) with cols by (symmetry; apply map_id). unfold emitted_rows. clear A. induction F as [|d l [Hd _] F IH]; [reflexivity|].
    cbn [flat_map]. rewrite map_app, IH. f_equal. now rewrite Hd, map_map.
Qed.
