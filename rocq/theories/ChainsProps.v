(** Grouping operations into chains changes nothing. *)
From Verif Require Import Base BaseFacts Rng Utils UtilsFacts Relationship RelationshipFacts Frame Gens GensProps Clock Attribute AttributeFacts World Story Ops OpsFacts
  SpecOps OpsProps Fs Circus SpecStory LocalFacts SpecCircus SpecChains.

(** ** No operation looks at the operations of the stories *)
Section Other.
  Context (F : list op -> list op).
  Definition fs_ (s : story) : story := with_ops s (F (st_ops s)).
  Definition fw (w : world) : world := set_stories (map fs_ (w_stories w)) w.
  Definition blind {A} (m : M A) : Prop := forall w, m (fw w) = (fst (m w), fw (snd (m w))).
  Lemma blind_ret {A} (x : A) : blind (ret x). Proof. intros w. reflexivity. Qed.
  Lemma blind_raise {A} e : blind (raise (A := A) e). Proof. intros w. reflexivity. Qed.
  Lemma blind_lift {A} (r : result A) : blind (lift r). Proof. intros w. reflexivity. Qed.
  Lemma blind_bind {A B} (m : M A) (f : A -> M B) : blind m -> (forall x, blind (f x)) -> blind (bindM m f).
  Proof. intros Hm Hf w. unfold bindM. rewrite Hm. destruct (m w) as [[x|e] w1]; cbn; [apply Hf|reflexivity]. Qed.
  Lemma blind_get {A} (f : world -> A) : (forall w, f (fw w) = f w) -> blind (get f).
  Proof. intros H w. unfold get. cbn. now rewrite H. Qed.
  Lemma blind_modify f : (forall w, f (fw w) = fw (f w)) -> blind (modify f).
  Proof. intros H w. unfold modify. cbn. now rewrite H. Qed.
  Lemma blind_deref {A} (f : world -> list A) i : (forall w, f (fw w) = f w) -> blind (deref f i).
  Proof. intros H w. unfold deref. rewrite H. now destruct (nth_error _ _). Qed.
  Lemma set_nth_map {A B} (g : A -> B) i x l : set_nth i (g x) (map g l) = map g (set_nth i x l).
  Proof. revert i. induction l as [|y l IH]; intros [|i]; cbn; [reflexivity..|]. now rewrite IH. Qed.
  Lemma blind_story {A} a (f : story -> M A) : (forall s w, f (fs_ s) (fw w) = (fst (f s w), fw (snd (f s w)))) -> blind (bindM (deref w_stories a) f).
  Proof.
    intros H w. unfold bindM, deref. cbn [fw set_stories w_stories]. rewrite nth_error_map. destruct (nth_error (w_stories w) a) as [s|]; cbn; [apply H|reflexivity].
  Qed.
  Lemma put_story_blind a s w : put_story a (fs_ s) (fw w) = (fst (put_story a s w), fw (snd (put_story a s w))).
  Proof. unfold put_story, modify. cbn. unfold fw. cbn. now rewrite set_nth_map. Qed.
  Lemma foreach_blind {A} (f : A -> M unit) l : (forall x, blind (f x)) -> blind (foreach f l).
  Proof. intros H. induction l as [|x l IH]; cbn [foreach]; [apply blind_ret|]. apply blind_bind; [apply H|]. intros _. exact IH. Qed.
  Lemma known_blind s ids : known (fs_ s) ids = known s ids. Proof. reflexivity. Qed.

  Lemma transit_blind a ids states : blind (story_transit a ids states).
  Proof.
    apply blind_story. intros s w. unfold bindM, lift, transit_to_state. rewrite known_blind. destruct (negb _); [reflexivity|]. destruct (negb _); [reflexivity|].
    cbn [fst snd]. rewrite <- put_story_blind. reflexivity.
  Qed.
  Lemma tick_blind a ids : blind (story_tick a ids).
  Proof.
    apply blind_story. intros s w. unfold bindM, lift, timer_tick. rewrite known_blind. cbn [fs_ with_ops st_forced st_timer]. destruct (negb _); [reflexivity|].
    cbn [fst snd]. rewrite <- put_story_blind. reflexivity.
  Qed.
  Lemma force_blind a ids : blind (story_force a ids).
  Proof.
    apply blind_story. intros s w. unfold force_act_next. rewrite known_blind. destruct ids as [|i ids].
    - cbn [bindM]. change (with_ops s (F (st_ops s))) with (fs_ s). unfold bindM. rewrite put_story_blind. reflexivity.
    - cbn [fs_ with_ops st_forced st_timer with_forced]. destruct (negb _); unfold bindM.
      + change (with_forced (fs_ s) ?x) with (fs_ (with_forced s x)). rewrite put_story_blind. reflexivity.
      + change (with_timer (with_forced (fs_ s) ?x) ?y) with (fs_ (with_timer (with_forced s x) y)). rewrite put_story_blind. reflexivity.
  Qed.
  Lemma get_param_blind s p ids : get_param (fs_ s) p ids = get_param s p ids. Proof. reflexivity. Qed.
  Lemma reset_timers_blind s g ids : reset_timers (fs_ s) g ids = rmap (fun '(s', g') => (fs_ s', g')) (reset_timers s g ids).
  Proof.
    unfold reset_timers. rewrite get_param_blind. change (st_ids (fs_ s)) with (st_ids s). change (st_forced (fs_ s)) with (st_forced s).
    destruct (index_difference _ _) as [|x l]; [reflexivity|]. destruct (get_param s Activity (x :: l)) as [act|]; [|reflexivity]. cbn [bind].
    destruct (tgen_generate g act) as [[nt g']|]; [|reflexivity]. cbn [bind]. rewrite known_blind. destruct (negb _); reflexivity.
  Qed.
  Lemma reset_blind a ids : blind (story_reset a ids).
  Proof.
    apply blind_story. intros s w. change (st_tgen (fs_ s)) with (st_tgen s). unfold bindM, lift, deref. change (w_tgens (fw w)) with (w_tgens w).
    destruct (nth_error (w_tgens w) (st_tgen s)) as [g|]; [|reflexivity]. rewrite reset_timers_blind. unfold bindM, lift.
    destruct (reset_timers s g ids) as [[s' g']|e]; cbn [rmap]; [|reflexivity]. cbn [put_tgen modify].
    change (set_tgens ?x (fw w)) with (fw (set_tgens x w)). rewrite put_story_blind. reflexivity.
  Qed.
  Ltac blind1 := first
    [ apply blind_ret | apply blind_raise | apply blind_lift
    | apply blind_get; intros ?; reflexivity | apply blind_modify; intros ?; reflexivity
    | apply blind_deref; intros ?; reflexivity
    | apply transit_blind | apply tick_blind | apply force_blind | apply reset_blind
    | apply foreach_blind; intros ? | apply blind_bind; [|intros ?] ].
  Ltac blinds := repeat (blind1 || match goal with |- blind (let (_, _) := ?x in _) => destruct x | |- blind (if ?b then _ else _) => destruct b
     | |- blind (match ?x with _ => _ end) => destruct x end).
  Lemma generate_blind g n : blind (generate g n). Proof. unfold generate. blinds. Qed.
  Lemma rel_add_blind r f t : blind (rel_add r f t). Proof. unfold rel_add, put_rel. blinds. Qed.
  Lemma rel_add_grouped_blind r f t : blind (rel_add_grouped r f t). Proof. unfold rel_add_grouped, put_rel. blinds. Qed.
  Lemma update_attr_blind a s : blind (update_attr a s). Proof. unfold update_attr, put_attr. blinds. Qed.
  Lemma get_attribute_blind p n : blind (get_attribute p n). Proof. unfold get_attribute. blinds. Qed.
  Lemma get_values_blind p n i : blind (get_attribute_values p n i).
  Proof. unfold get_attribute_values. apply blind_bind; [apply get_attribute_blind|]. intros ?. blinds. Qed.
  Lemma pop_update_blind p d : blind (pop_update p d).
  Proof. unfold pop_update, put_pop. blinds. Qed.
  Lemma lookup_columns_blind p cells sel : blind (lookup_columns p cells sel).
  Proof. induction sel as [|[x y] sel IH]; cbn [lookup_columns]; [apply blind_ret|]. apply blind_bind; [apply get_values_blind|]. intros t. blinds. exact IH. Qed.
  Lemma back_blind a judge d : blind (back_to_default a judge d).
  Proof.
    apply blind_story. intros s w. rewrite known_blind. destruct (negb _); [reflexivity|]. cbv zeta. change (state_of (fs_ s)) with (state_of s).
    change (get_param (fs_ s)) with (get_param s). destruct (filter _ _) as [|x l]; [reflexivity|]. revert w. match goal with |- forall w, ?m _ = _ => change (blind m) end.
    apply blind_bind; [apply blind_lift|]. intros bp. apply blind_bind; [|intros cond; apply transit_blind].
    destruct (forallb _ bp); [apply blind_ret|]. destruct (forallb _ bp); [apply blind_ret|]. apply blind_bind; [apply generate_blind|]. intros ?. blinds.
  Qed.
  Lemma run_list_blind ops : Forall (fun o => forall d, blind (run_op o d)) ops -> forall d l, blind (run_list run_op ops d l).
  Proof. induction 1 as [|o ops Ho _ IH]; intros d l; cbn [run_list]; [apply blind_ret|]. apply blind_bind; [apply Ho|]. intros [d1 l1]. apply blind_bind; [apply blind_lift|]. intros ?. apply IH. Qed.
  Lemma run_op_blind o : forall d, blind (run_op o d).
  Proof.
    induction o as [o Hn|ops IH] using op_ind'; intros d; [destruct o; cbn [run_op]|].
    1-21: try (unfold transformed, side_effect, if_rows, call_select_one, call_select_many, put_rel, put_attr, lookup_output;
           repeat first [apply rel_add_blind|apply rel_add_grouped_blind|apply update_attr_blind|apply pop_update_blind|apply lookup_columns_blind|apply back_blind|progress blind1
             |match goal with |- blind (let (_, _) := ?x in _) => destruct x | |- blind (if ?b then _ else _) => destruct b | |- blind (match ?x with _ => _ end) => destruct x end]).
    - exfalso. eapply Hn. reflexivity.
    - cbn [run_op]. apply run_list_blind. exact IH.
  Qed.
End Other.

(** ** Merging logs is associative *)
Definition merged (a b : logs) : logs :=
  map (fun k => (k, match merged_at df_concat (dget k a) (dget k b) with Some v => v | None => mkDf [] [] end)) (union_keys a b).
Lemma merge_is (a b : logs) : merge_dicts [a; b] (Some df_concat) = Ok (merged a b).
Proof.
  cbn [merge_dicts fold_left bind merge_2_dicts]. unfold merge_2_dicts_ord, merged.
  assert (H : forall k, In k (union_keys a b) -> In k (dkeys a) \/ In k (dkeys b)) by (intros k; apply union_keys_In).
  revert H. generalize (union_keys a b). induction l as [|k l IH]; intros H; cbn [mapr map]; [reflexivity|].
  rewrite IH by (intros k' Hk; apply H; now right).
  assert (E : merged_value (Some df_concat) a b k = Ok match merged_at df_concat (dget k a) (dget k b) with Some v => v | None => mkDf [] [] end).
  { unfold merged_value. destruct (dget k a) eqn:Ea; destruct (dget k b) eqn:Eb; try reflexivity. exfalso. apply dget_None in Ea. apply dget_None in Eb. destruct (H k (or_introl eq_refl)); contradiction. }
  now rewrite E.
Qed.
Lemma merged_get a b k : dget k (merged a b) = merged_at df_concat (dget k a) (dget k b).
Proof.
  pose proof (merge_is a b) as E. destruct (merge_logs a b) as (l & E' & H). rewrite E in E'. injection E' as <-. apply H.
Qed.
Lemma merged_keys a b : dkeys (merged a b) = union_keys a b.
Proof. unfold merged, dkeys. rewrite map_map. cbn. apply map_id. Qed.
Lemma union_keys_assoc (a b c : logs) : union_keys (merged a b) c = union_keys a (merged b c).
Proof.
  assert (U : forall x y : logs, union_keys x y = union_cols (dkeys x) (dkeys y)).
  { intros x y. unfold union_keys, union_cols. f_equal. apply filter_ext. intros k. f_equal. destruct (dmem k x) eqn:E; symmetry.
    - apply mem_In. now apply dmem_In. - apply mem_not_In. intros H. apply dmem_In in H. congruence. }
  rewrite !U, !merged_keys, !U. apply union_cols_assoc.
Qed.
Lemma merged_assoc a b c : merged (merged a b) c = merged a (merged b c).
Proof.
  unfold merged at 1 3. rewrite union_keys_assoc. apply map_ext. intros k. now rewrite !merged_get, merged_at_assoc.
Qed.
Lemma merged_nodup a b : NoDup (dkeys a) -> NoDup (dkeys b) -> NoDup (dkeys (merged a b)).
Proof. intros Ha Hb. rewrite merged_keys. now apply union_keys_NoDup. Qed.
Lemma merged_nil_l b : NoDup (dkeys b) -> merged [] b = b.
Proof.
  intros Hb. unfold merged.
  assert (U : union_keys ([] : logs) b = dkeys b) by (clear Hb; unfold union_keys; cbn; induction (dkeys b) as [|k l IH]; cbn; [reflexivity|now rewrite IH]).
  rewrite U. clear U.
  induction b as [|[k v] b IH]; cbn [dkeys map]; [reflexivity|]. cbn [dkeys map fst] in Hb. inversion Hb as [|? ? Hk Hb']; subst. f_equal.
  - cbn [dget merged_at]. now rewrite keqb_refl.
  - rewrite <- (IH Hb') at 2. apply map_ext_in. intros k' Hk'. cbn [dget]. destruct (keqb_spec k' k) as [->|_]; [contradiction|reflexivity].
Qed.
Lemma merged_nil_r a : NoDup (dkeys a) -> merged a [] = a.
Proof.
  intros Ha. unfold merged, union_keys. cbn [dkeys map filter]. rewrite app_nil_r.
  induction a as [|[k v] a IH]; cbn [dkeys map]; [reflexivity|]. cbn [dkeys map fst] in Ha. inversion Ha as [|? ? Hk Ha']; subst. f_equal.
  - cbn [dget merged_at]. now rewrite keqb_refl.
  - rewrite <- (IH Ha') at 2. apply map_ext_in. intros k' Hk'. cbn [dget]. destruct (keqb_spec k' k) as [->|_]; [contradiction|reflexivity].
Qed.

(** ** Chains *)
Fixpoint flat (o : op) : list op := match o with OpChain l => flat_map flat l | _ => [o] end.
Definition flats (l : list op) : list op := flat_map flat l.

Lemma run_list_nodup ops : Forall (fun o => forall d w d' l w', run_op o d w = (Ok (d', l), w') -> NoDup (dkeys l)) ops ->
  forall d l0 w d' l w', NoDup (dkeys l0) -> run_list run_op ops d l0 w = (Ok (d', l), w') -> NoDup (dkeys l).
Proof.
  induction 1 as [|o ops Ho _ IH]; intros d l0 w d' l w' N; cbn [run_list].
  - intros [= _ <- _]. exact N.
  - unfold bindM, lift. destruct (run_op o d w) as [[[d1 l1]|e] w1] eqn:E; [|discriminate]. rewrite merge_is. apply IH. apply merged_nodup; [exact N|eauto].
Qed.
Lemma transformed_logs m w d l w' : transformed m w = (Ok (d, l), w') -> l = [].
Proof. unfold transformed, bindM. destruct (m w) as [[x|e] w1]; cbn; [|discriminate]. now intros [= _ <- _]. Qed.
Lemma side_effect_logs d0 m w d l w' : side_effect d0 m w = (Ok (d, l), w') -> l = [].
Proof. unfold side_effect, bindM. destruct (m w) as [[x|e] w1]; cbn; [|discriminate]. now intros [= _ <- _]. Qed.
Lemma run_op_nodup o : forall d w d' l w', run_op o d w = (Ok (d', l), w') -> NoDup (dkeys l).
Proof.
  induction o as [o Hn|ops IH] using op_ind'; intros d w d' l w' H.
  - destruct o; cbn [run_op] in H; try (apply transformed_logs in H as ->; constructor); try (apply side_effect_logs in H as ->; constructor).
    + unfold bindM, lift in H. destruct (emit_log _ _ _); [|discriminate]. injection H as _ <- _. repeat constructor. intros [].
    + exfalso. eapply Hn. reflexivity.
  - cbn [run_op] in H. eapply run_list_nodup; [exact IH| |exact H]. constructor.
Qed.

(** what was logged before is put in front *)
Lemma run_list_before ops d l0 w : NoDup (dkeys l0) -> run_list run_op ops d l0 w =
  match run_list run_op ops d [] w with
  | (Ok (d', l), w') => (Ok (d', merged l0 l), w')
  | (Err e, w') => (Err e, w')
  end.
Proof.
  intros N. assert (H : forall ops d l1 w, NoDup (dkeys l1) -> run_list run_op ops d (merged l0 l1) w =
    match run_list run_op ops d l1 w with (Ok (d', l), w') => (Ok (d', merged l0 l), w') | (Err e, w') => (Err e, w') end).
  { clear ops d w. induction ops as [|o ops IH]; intros d l1 w N1; cbn [run_list]; [reflexivity|]. unfold bindM, lift.
    destruct (run_op o d w) as [[[d1 s]|e] w1] eqn:E; [|reflexivity]. rewrite !merge_is, merged_assoc. apply IH. apply merged_nodup; [exact N1|eapply run_op_nodup; eauto]. }
  specialize (H ops d [] w (NoDup_nil _)). rewrite merged_nil_r in H by exact N. exact H.
Qed.
Lemma run_list_single o d w : run_list run_op [o] d [] w = run_op o d w.
Proof.
  cbn [run_list]. unfold bindM, lift, ret. destruct (run_op o d w) as [[[d1 s]|e] w1] eqn:E; [|reflexivity].
  rewrite merge_is, merged_nil_l by (eapply run_op_nodup; eauto). reflexivity.
Qed.
Lemma run_list_cut o1 o2 d l0 w : run_list run_op (o1 ++ o2) d l0 w =
  match run_list run_op o1 d l0 w with (Ok (d', l), w') => run_list run_op o2 d' l w' | (Err e, w') => (Err e, w') end.
Proof. rewrite run_list_app. unfold bindM. now destruct (run_list run_op o1 d l0 w) as [[[d1 l1]|e] w1]. Qed.

(** Two lists of operations that do the same. *)
Definition same_ops (o1 o2 : list op) : Prop := forall d l0 w, NoDup (dkeys l0) -> run_list run_op o1 d l0 w = run_list run_op o2 d l0 w.
Lemma same_parts o1 o1' o2 o2' : same_ops o1 o1' -> same_ops o2 o2' -> same_ops (o1 ++ o2) (o1' ++ o2').
Proof.
  intros H1 H2 d l0 w N. rewrite !run_list_cut, (H1 d l0 w N). destruct (run_list run_op o1' d l0 w) as [[[d1 l1]|e] w1] eqn:E; [|reflexivity].
  apply H2. eapply run_list_nodup; [|exact N|exact E]. apply Forall_forall. intros o _. apply run_op_nodup.
Qed.
Lemma same_chain l : same_ops [OpChain l] l.
Proof.
  intros d l0 w N. rewrite (run_list_before [OpChain l] d l0 w N), (run_list_before l d l0 w N), run_list_single. reflexivity.
Qed.
Lemma regrouped_same_ops l l' : regrouped l l' -> same_ops l l'.
Proof.
  induction 1 as [l|l|l1 l1' l2 l2' _ H1 _ H2|l l' _ IH|l l' l'' _ H1 _ H2].
  - intros d l0 w _. reflexivity. - apply same_chain. - now apply same_parts.
  - intros d l0 w N. symmetry. now apply IH. - intros d l0 w N. rewrite H1 by exact N. now apply H2.
Qed.

(** ** Flattening *)
Lemma regrouped_flat o : regrouped [o] (flat o).
Proof.
  induction o as [o Hn|ops IH] using op_ind'; [destruct o; cbn [flat]; try apply regrouped_same; exfalso; eapply Hn; reflexivity|].
  cbn [flat]. eapply regrouped_trans; [apply regrouped_chain|]. induction IH as [|o ops Ho _ IH']; cbn [flat_map]; [apply regrouped_same|].
  exact (regrouped_parts [o] _ ops _ Ho IH').
Qed.
Lemma regrouped_flats l : regrouped l (flats l).
Proof. induction l as [|o l IH]; cbn [flats flat_map]; [apply regrouped_same|]. exact (regrouped_parts [o] _ l _ (regrouped_flat o) IH). Qed.
Lemma regrouped_same_flats l l' : regrouped l l' -> flats l = flats l'.
Proof.
  induction 1 as [l|l|l1 l1' l2 l2' _ H1 _ H2|l l' _ IH|l l' l'' _ H1 _ H2]; [reflexivity| |unfold flats in *; rewrite !flat_map_app; congruence|congruence|congruence].
  unfold flats. cbn [flat_map flat]. apply app_nil_r.
Qed.
Notation flatten := (fw flats).
Notation flatten_story := (fs_ flats).
Lemma set_stories_same w : set_stories (w_stories w) w = w. Proof. now destruct w. Qed.
Lemma with_ops_same s : with_ops s (st_ops s) = s. Proof. now destruct s. Qed.
Lemma regrouped_flatten w : regrouped_circus w (flatten w).
Proof.
  exists (map flatten_story (w_stories w)). split; [reflexivity|]. induction (w_stories w) as [|s l IH]; cbn; constructor; [|exact IH].
  exists (flats (st_ops s)). split; [reflexivity|apply regrouped_flats].
Qed.
Lemma regrouped_circus_flatten w w' : regrouped_circus w w' <-> flatten w = flatten w'.
Proof.
  split.
  - intros (stories & -> & H). unfold fw. cbn [set_stories w_stories]. enough (E : map flatten_story (w_stories w) = map flatten_story stories) by (rewrite E; reflexivity).
    induction H as [|s s' l l' (ops & -> & R) _ IH]; [reflexivity|]. cbn [map]. rewrite IH. f_equal. unfold fs_. cbn. now rewrite (regrouped_same_flats _ _ R).
  - intros E. exists (w_stories w'). split.
    + destruct w, w'. unfold fw in E. cbn in *. injection E. intros. subst. reflexivity.
    + assert (Es : map flatten_story (w_stories w) = map flatten_story (w_stories w')) by exact (f_equal w_stories E).
      clear E. revert Es. generalize (w_stories w) (w_stories w'). induction l as [|s l IH]; intros [|s' l'] Es; try discriminate; constructor.
      * assert (E1 : flatten_story s = flatten_story s') by exact (f_equal (hd (flatten_story s)) Es). exists (st_ops s'). split.
        -- destruct s, s'. unfold fs_ in E1. cbn in *. injection E1. intros. subst. reflexivity.
        -- assert (Ef : flats (st_ops s) = flats (st_ops s')) by exact (f_equal st_ops E1).
           eapply regrouped_trans; [apply regrouped_flats|]. rewrite Ef. apply regrouped_sym, regrouped_flats.
      * apply IH. exact (f_equal (@tl _) Es).
Qed.

Lemma flats_regrouped l l' : flats l = flats l' -> regrouped l l'.
Proof. intros E. eapply regrouped_trans; [apply regrouped_flats|]. rewrite E. apply regrouped_sym, regrouped_flats. Qed.
Lemma flat_plain o : forall ops, ~ In (OpChain ops) (flat o).
Proof.
  induction o as [o Hn|l IH] using op_ind'; intros ops.
  - destruct o; cbn [flat]; try (intros [K|[]]; discriminate). intros _. eapply Hn. reflexivity.
  - cbn [flat]. rewrite in_flat_map. intros (o & Ho & K). rewrite Forall_forall in IH. exact (IH _ Ho _ K).
Qed.
Lemma flats_plain l ops : ~ In (OpChain ops) (flats l).
Proof. unfold flats. rewrite in_flat_map. intros (o & _ & K). exact (flat_plain _ _ K). Qed.

(** ** Executions and runs *)
Lemma flats_chain ops d w : run_chain (flats ops) d w = run_chain ops d w.
Proof. unfold run_chain. symmetry. apply regrouped_same_ops; [apply regrouped_flats|constructor]. Qed.
(** What [execute] does once it has found the story, with the operations apart. *)
Definition exec_with (ops : list op) (a : nat) (s : story) : M logs :=
  let* _ := put_story a (with_forced s []) in
  let (active, inactive) := active_inactive_ids s in
  let* all_logs :=
    match active with
    | [] => ret []
    | _ =>
        let* (_, l) := run_chain ops (init_story_data (st_field s) active) in
        let* _ := if st_auto s then story_reset a (Some active) else story_tick a active in
        ret l
    end in
  let* _ := story_tick a inactive in
  ret all_logs.
Lemma bindM_ext {A B} (m m' : M A) (f g : A -> M B) w : m w = m' w -> (forall x w', f x w' = g x w') -> bindM m f w = bindM m' g w.
Proof. intros E H. unfold bindM. rewrite E. destruct (m' w) as [[x|e] w1]; [apply H|reflexivity]. Qed.
Lemma exec_with_flats ops a s w : exec_with (flats ops) a s w = exec_with ops a s w.
Proof.
  unfold exec_with. apply bindM_ext; [reflexivity|]. intros _ w1. destruct (active_inactive_ids s) as [active inactive]. apply bindM_ext; [|reflexivity].
  destruct active as [|i l]; [reflexivity|]. apply bindM_ext; [apply flats_chain|reflexivity].
Qed.
Lemma blind_bind2 {A B} (m m' : M A) (f : A -> M B) w :
  m' (flatten w) = (fst (m w), flatten (snd (m w))) -> (forall x, blind flats (f x)) -> bindM m' f (flatten w) = (fst (bindM m f w), flatten (snd (bindM m f w))).
Proof. intros E H. unfold bindM. rewrite E. destruct (m w) as [[x|e] w1]; cbn [fst snd]; [apply H|reflexivity]. Qed.
Lemma exec_with_blind ops a s w :
  exec_with ops a (flatten_story s) (flatten w) = (fst (exec_with ops a s w), flatten (snd (exec_with ops a s w))).
Proof.
  unfold exec_with. change (active_inactive_ids (flatten_story s)) with (active_inactive_ids s). change (st_field (flatten_story s)) with (st_field s).
  change (st_auto (flatten_story s)) with (st_auto s). destruct (active_inactive_ids s) as [active inactive].
  change (with_forced (flatten_story s) []) with (flatten_story (with_forced s [])).
  apply blind_bind2; [apply put_story_blind|]. intros _.
  apply blind_bind; [|intros ?; apply blind_bind; [apply tick_blind|intros ?; apply blind_ret]].
  destruct active as [|i l]; [apply blind_ret|]. apply blind_bind; [apply run_list_blind; apply Forall_forall; intros o _; apply run_op_blind|].
  intros [d l']. apply blind_bind; [|intros ?; apply blind_ret]. destruct (st_auto s); [apply reset_blind|apply tick_blind].
Qed.
Lemma execute_blind a : blind flats (execute a).
Proof.
  change (execute a) with (let* s := deref w_stories a in exec_with (st_ops s) a s). apply blind_story. intros s w.
  change (st_ops (flatten_story s)) with (flats (st_ops s)). rewrite exec_with_flats. apply exec_with_blind.
Qed.
Lemma happen_blind h w : happen h (flatten w) = (fst (happen h w), flatten (snd (happen h w))).
Proof.
  destruct h as [a| |a ids|a ids|a ids states|a ids]; cbn [happen].
  - rewrite execute_blind. now destruct (execute a w) as [[l|e] w1].
  - cbn. unfold increment_clock. change (w_clock (flatten w)) with (w_clock w). change (w_tgens (flatten w)) with (w_tgens w). now destruct (clock_increment (w_clock w, w_tgens w)).
  - apply force_blind. - apply reset_blind. - apply transit_blind. - apply tick_blind.
Qed.
Definition flat_state (st : rstate) : rstate := let '(w, fs, tr) := st in (flatten w, fs, tr).
Lemma save_all_blind folder l : forall st, save_all folder (flat_state st) l = (fst (save_all folder st l), flat_state (snd (save_all folder st l))).
Proof.
  induction l as [|[id d] l IH]; intros [[w fs] tr]; cbn [save_all]; [reflexivity|]. unfold do_save, flat_state.
  destruct (apply_events fs _) as [[r fs'] done] eqn:E. destruct r as [[]|e]; [|reflexivity]. exact (IH (w, fs', tr ++ done)).
Qed.
Lemma run_story_blind folder st a : run_story folder (flat_state st) a = (fst (run_story folder st a), flat_state (snd (run_story folder st a))).
Proof.
  destruct st as [[w fs] tr]. cbn [run_story flat_state]. rewrite execute_blind. destruct (execute a w) as [[l|e] w1]; cbn [fst snd]; [|reflexivity].
  exact (save_all_blind folder l (w1, fs, tr)).
Qed.
Lemma run_stories_blind folder l : forall st, run_stories folder (flat_state st) l = (fst (run_stories folder st l), flat_state (snd (run_stories folder st l))).
Proof.
  induction l as [|a l IH]; intros st; cbn [run_stories]; [reflexivity|]. rewrite run_story_blind. destruct (run_story folder st a) as [[[]|e] st']; cbn [fst snd]; [apply IH|reflexivity].
Qed.
Lemma run_step_blind folder st : run_step folder (flat_state st) = (fst (run_step folder st), flat_state (snd (run_step folder st))).
Proof.
  unfold run_step. destruct st as [[w fs] tr]. cbn [flat_state]. change (length (w_stories (flatten w))) with (length (map flatten_story (w_stories w))). rewrite map_length.
  rewrite (run_stories_blind folder _ (w, fs, tr)). destruct (run_stories folder (w, fs, tr) _) as [[[]|e] [[w' fs'] tr']]; cbn [fst snd flat_state]; [|reflexivity].
  assert (H : increment_clock (flatten w') = flatten (increment_clock w')) by exact (f_equal snd (happen_blind HClock w')). rewrite H. reflexivity.
Qed.
Lemma run_steps_blind n folder : forall st, run_steps n folder (flat_state st) = (fst (run_steps n folder st), flat_state (snd (run_steps n folder st))).
Proof.
  induction n as [|n IH]; intros st; cbn [run_steps]; [reflexivity|]. rewrite run_step_blind. destruct (run_step folder st) as [[[]|e] st']; cbn [fst snd]; [apply IH|reflexivity].
Qed.
Lemma run_blind duration folder del w fs :
  run duration folder del (flatten w) fs = (fst (run duration folder del w fs), flat_state (snd (run duration folder del w fs))).
Proof.
  unfold run. change (w_clock (flatten w)) with (w_clock w). destruct (n_iterations _ _) as [n|e]; [|reflexivity].
  destruct (path_exists fs folder); [|apply (run_steps_blind _ folder (w, fs, []))]. destruct del; [|reflexivity].
  destruct (ensure_non_existing_dir fs folder) as [fs'|e]; [apply (run_steps_blind _ folder (w, fs', []))|reflexivity].
Qed.

Lemma regrouped_happen h w w' : regrouped_circus w w' -> fst (happen h w') = fst (happen h w) /\ regrouped_circus (snd (happen h w)) (snd (happen h w')).
Proof.
  intros R. apply regrouped_circus_flatten in R. pose proof (happen_blind h w) as E. pose proof (happen_blind h w') as E'. rewrite R, E' in E.
  split; [exact (f_equal fst E)|]. apply regrouped_circus_flatten. symmetry. exact (f_equal snd E).
Qed.
Lemma regrouped_execute a w w' : regrouped_circus w w' -> fst (execute a w') = fst (execute a w) /\ regrouped_circus (snd (execute a w)) (snd (execute a w')).
Proof.
  intros R. apply regrouped_circus_flatten in R. pose proof (execute_blind a w) as E. pose proof (execute_blind a w') as E'. rewrite R, E' in E.
  split; [exact (f_equal fst E)|]. apply regrouped_circus_flatten. symmetry. exact (f_equal snd E).
Qed.
Lemma regrouped_run duration folder del w w' fs : regrouped_circus w w' ->
  fst (run duration folder del w' fs) = fst (run duration folder del w fs) /\
  snd (fst (snd (run duration folder del w' fs))) = snd (fst (snd (run duration folder del w fs))) /\
  snd (snd (run duration folder del w' fs)) = snd (snd (run duration folder del w fs)) /\
  regrouped_circus (fst (fst (snd (run duration folder del w fs)))) (fst (fst (snd (run duration folder del w' fs)))).
Proof.
  intros R. apply regrouped_circus_flatten in R. pose proof (run_blind duration folder del w fs) as E. pose proof (run_blind duration folder del w' fs) as E'. rewrite R, E' in E.
  pose proof (f_equal fst E) as E1. pose proof (f_equal snd E) as E2. clear E E'. cbn [fst snd] in E1, E2.
  destruct (snd (run duration folder del w fs)) as [[v f] t]. destruct (snd (run duration folder del w' fs)) as [[v' f'] t']. cbn [flat_state fst snd] in *.
  split; [exact E1|]. split; [exact (f_equal (fun x => snd (fst x)) E2)|]. split; [exact (f_equal snd E2)|]. apply regrouped_circus_flatten. symmetry. exact (f_equal (fun x => fst (fst x)) E2).
Qed.
Lemma regrouped_history w l w1 : history w l w1 -> forall w', regrouped_circus w w' -> exists w1', history w' l w1' /\ regrouped_circus w1 w1'.
Proof.
  induction 1 as [w|w h w1 l w2 E _ IH]; intros w' R; [exists w'; split; [constructor|exact R]|]. destruct (regrouped_happen h _ _ R) as [E' R']. rewrite E in *. cbn [fst snd] in *.
  destruct (IH _ R') as (w2' & H' & R2). exists w2'. split; [|exact R2]. econstructor; [|exact H']. now rewrite <- E', <- surjective_pairing.
Qed.
Lemma regrouped_emits w l L w1 : emits w l L w1 -> forall w', regrouped_circus w w' -> exists w1', emits w' l L w1' /\ regrouped_circus w1 w1'.
Proof.
  induction 1 as [w|w a l w1 hs l' w2 E _ IH|w h w1 hs l w2 N E _ IH]; intros w' R.
  - exists w'. split; [constructor|exact R].
  - destruct (regrouped_execute a _ _ R) as [E' R']. rewrite E in *. cbn [fst snd] in *. destruct (IH _ R') as (w2' & H' & R2). exists w2'. split; [|exact R2].
    econstructor; [|exact H']. now rewrite <- E', <- surjective_pairing.
  - destruct (regrouped_happen h _ _ R) as [E' R']. rewrite E in *. cbn [fst snd] in *. destruct (IH _ R') as (w2' & H' & R2). exists w2'. split; [|exact R2].
    eapply emits_other; [exact N| |exact H']. now rewrite <- E', <- surjective_pairing.
Qed.
