(** Facts about the story methods (Story.v) and execute (Ops.v). *)
From Verif Require Import Base BaseFacts Rng Utils Relationship RelationshipFacts Frame Gens GensProps Clock Attribute AttributeFacts World Story Ops OpsFacts Fs Circus SpecStory.

Lemma index_difference_In x a b : In x (index_difference a b) <-> In x a /\ ~ In x b.
Proof.
  unfold index_difference. destruct (list_eqb a b) eqn:E.
  - apply list_eqb_eq in E. subst. cbn. tauto.
  - destruct b as [|y b]; [cbn; tauto|].
    rewrite isort_In, uniq_In, filter_In, negb_true_iff, mem_not_In. tauto.
Qed.

Lemma index_difference_nil a : index_difference a [] = a.
Proof. unfold index_difference. destruct a; reflexivity. Qed.

(** ** The parts of a story nothing changes *)
Definition static (s s' : story) : Prop :=
  st_name s' = st_name s /\ st_pop s' = st_pop s /\ st_field s' = st_field s /\ st_tgen s' = st_tgen s /\
  st_auto s' = st_auto s /\ st_states s' = st_states s /\ st_params s' = st_params s /\
  st_ops s' = st_ops s /\ st_ids s' = st_ids s.

Lemma static_refl s : static s s.
Proof. unfold static. tauto. Qed.
Lemma static_trans a b c : static a b -> static b c -> static a c.
Proof.
  unfold static. intros (A1&A2&A3&A4&A5&A6&A7&A8&A9) (B1&B2&B3&B4&B5&B6&B7&B8&B9).
  repeat apply conj; congruence.
Qed.

Lemma static_forced s f : static s (with_forced s f).
Proof. unfold static. cbn. tauto. Qed.

Definition retimed (h : val -> string -> option Z -> string * option Z) (s : story) : story :=
  with_timer s (map (fun '(i, (st, r)) => (i, h i st r)) (st_timer s)).

Lemma retimed_static h s : static s (retimed h s).
Proof.
  unfold static, retimed, st_ids, dkeys. cbn. repeat apply conj; try reflexivity.
  rewrite map_map. apply map_ext. intros [i [st r]]. reflexivity.
Qed.

Lemma retimed_dget h s i :
  dget i (st_timer (retimed h s)) = option_map (fun x => h i (fst x) (snd x)) (dget i (st_timer s)).
Proof.
  unfold retimed. cbn. induction (st_timer s) as [|[j [st r]] l IH]; cbn; [reflexivity|].
  destruct (keqb_spec i j) as [->|N]; [reflexivity|apply IH].
Qed.

Lemma retimed_state h s i : (forall j st r, fst (h j st r) = st) ->
  state_of (retimed h s) i = state_of s i.
Proof.
  intros H. unfold state_of. rewrite retimed_dget. destruct (dget i (st_timer s)) as [[st r]|]; [|reflexivity].
  cbn. rewrite H. reflexivity.
Qed.

Lemma retimed_remaining h s i : (forall j st r, snd (h j st r) = r) ->
  remaining_of (retimed h s) i = remaining_of s i.
Proof.
  intros H. unfold remaining_of. rewrite retimed_dget. destruct (dget i (st_timer s)) as [[st r]|]; [|reflexivity].
  cbn. rewrite H. reflexivity.
Qed.

Lemma retimed_remaining_f h f s i : (forall j st r, snd (h j st r) = f j r) ->
  remaining_of (retimed h s) i = option_map (f i) (remaining_of s i).
Proof.
  intros H. unfold remaining_of. rewrite retimed_dget. destruct (dget i (st_timer s)) as [[st r]|]; [|reflexivity].
  cbn. rewrite H. reflexivity.
Qed.

Lemma known_spec s ids : known s ids = true <-> forall i, In i ids -> In i (st_ids s).
Proof.
  unfold known. rewrite forallb_forall. split; intros H i Hi; specialize (H i Hi); now apply mem_In.
Qed.

(** ** transit_to_state *)
Lemma transit_spec s ids states s' : transit_to_state s ids states = Ok s' ->
  length ids = length states /\ known s ids = true /\ static s s' /\ st_forced s' = st_forced s /\
  s' = retimed (fun i st r => (match dget_last i (combine ids states) with Some st' => st' | None => st end, r)) s.
Proof.
  unfold transit_to_state. destruct (known s ids) eqn:K; [|discriminate]. cbn [negb].
  destruct (length ids =? length states) eqn:L; [|discriminate]. cbn [negb]. intros [= <-].
  apply Nat.eqb_eq in L. split; [exact L|]. split; [reflexivity|].
  change (with_timer s _) with (retimed (fun i st r =>
    (match dget_last i (combine ids states) with Some st' => st' | None => st end, r)) s).
  split; [apply retimed_static|]. split; reflexivity.
Qed.

Lemma transit_remaining s ids states s' i : transit_to_state s ids states = Ok s' ->
  remaining_of s' i = remaining_of s i.
Proof.
  intros H. apply transit_spec in H. destruct H as (_ & _ & _ & _ & ->).
  apply retimed_remaining. reflexivity.
Qed.

(** ** timer_tick *)
Definition tick_ids (s : story) (ids : list val) : list val :=
  match st_forced s with [] => ids | _ => index_difference ids (st_forced s) end.

Lemma tick_ids_In s ids i : In i (tick_ids s ids) <-> In i ids /\ ~ In i (st_forced s).
Proof.
  unfold tick_ids. destruct (st_forced s) as [|f l] eqn:E; [cbn; tauto|].
  apply index_difference_In.
Qed.

Lemma tick_spec s ids s' : timer_tick s ids = Ok s' ->
  static s s' /\ st_forced s' = st_forced s /\
  (forall i, state_of s' i = state_of s i) /\
  (forall i, remaining_of s' i =
     if mem i (tick_ids s ids) then option_map ticked (remaining_of s i) else remaining_of s i).
Proof.
  unfold timer_tick. fold (tick_ids s ids).
  destruct (known s (tick_ids s ids)); [|discriminate]. cbn [negb]. intros [= <-].
  change (with_timer s _) with (retimed (fun i st r => (st, if mem i (tick_ids s ids) then ticked r else r)) s).
  split; [apply retimed_static|]. split; [reflexivity|]. split.
  - intros i. apply retimed_state. reflexivity.
  - intros i. rewrite (retimed_remaining_f _ (fun j r => if mem j (tick_ids s ids) then ticked r else r))
      by reflexivity.
    destruct (mem i (tick_ids s ids)); [reflexivity|]. destruct (remaining_of s i); reflexivity.
Qed.

Lemma tick_runs s ids : (forall i, In i ids -> In i (st_ids s)) -> exists s', timer_tick s ids = Ok s'.
Proof.
  intros H. unfold timer_tick. fold (tick_ids s ids).
  replace (known s (tick_ids s ids)) with true; [cbn; eauto|].
  symmetry. apply known_spec. intros i Hi. apply tick_ids_In in Hi. apply H. tauto.
Qed.

(** ** force_act_next *)
Lemma force_spec s ids res s' : force_act_next s ids = (res, s') ->
  static s s' /\ (forall i, state_of s' i = state_of s i) /\
  (forall i, In i (st_forced s') <-> In i (st_forced s) \/ In i ids) /\
  (res = Ok tt -> forall i, In i ids -> In i (st_ids s)) /\
  (res = Ok tt -> forall i, remaining_of s' i =
     if mem i ids then option_map (fun _ => Some 0%Z) (remaining_of s i) else remaining_of s i) /\
  (res <> Ok tt -> res = Err KeyError /\ forall i, remaining_of s' i = remaining_of s i).
Proof.
  unfold force_act_next. destruct ids as [|x ids].
  { intros [= <- <-]. split; [apply static_refl|]. split; [reflexivity|]. split; [cbn; tauto|].
    split; [cbn; tauto|]. split; [intros _ i; reflexivity|]. intros H. congruence. }
  destruct (known s (x :: ids)) eqn:K; cbn [negb]; intros [= <- <-].
  - change (with_timer _ _) with (retimed (fun i st r => (st, if mem i (x :: ids) then Some 0%Z else r))
      (with_forced s (index_union (x :: ids) (st_forced s)))).
    split.
    { eapply static_trans; [apply static_forced|apply retimed_static]. }
    split; [intros i; rewrite retimed_state by reflexivity; reflexivity|].
    split. { intros i. cbn [retimed with_timer with_forced st_forced]. rewrite index_union_In. tauto. }
    split; [intros _; apply known_spec; exact K|]. split; [|congruence].
    intros _ i. rewrite (retimed_remaining_f _ (fun j r => if mem j (x :: ids) then Some 0%Z else r)) by reflexivity.
    change (remaining_of (with_forced s (index_union (x :: ids) (st_forced s))) i) with (remaining_of s i).
    destruct (mem i (x :: ids)); destruct (remaining_of s i); reflexivity.
  - split; [apply static_forced|]. split; [reflexivity|].
    split. { intros i. cbn [with_forced st_forced]. rewrite index_union_In. tauto. }
    split; [congruence|]. split; [congruence|]. intros _. split; reflexivity.
Qed.

Lemma dget_fst_combine {B C} (xs : list (val * B)) (ys : list C) i : NoDup (map fst xs) ->
  length xs = length ys ->
  forall b, dget i xs = Some b ->
  exists c, In ((i, b), c) (combine xs ys) /\ forall D (f : (val * B) * C -> D), dget i (map (fun z => (fst (fst z), f z)) (combine xs ys)) = Some (f ((i, b), c)).
Proof.
  revert ys. induction xs as [|[j b0] xs IH]; intros [|y ys] Nd L b H; try discriminate.
  cbn in H. inversion Nd as [|? ? Nj Nx]; subst.
  destruct (keqb_spec i j) as [->|N].
  - injection H as <-. exists y. split; [now left|]. intros D f. cbn. rewrite keqb_refl. reflexivity.
  - destruct (IH ys Nx ltac:(now injection L) b H) as (c & H1 & H2).
    exists c. split; [now right|]. intros D f. cbn. destruct (keqb_spec i j); [congruence|]. apply H2.
Qed.

Lemma NoDup_rev_keys {V} (l : list (val * V)) : NoDup (dkeys l) -> NoDup (dkeys (rev l)).
Proof. unfold dkeys. rewrite map_rev. intros H. apply NoDup_rev, H. Qed.

Lemma dget_last_NoDup {V} k (l : list (val * V)) : NoDup (dkeys l) -> dget_last k l = dget k l.
Proof.
  intros H. unfold dget_last. destruct (dget k l) as [v|] eqn:E.
  - apply In_dget; [now apply NoDup_rev_keys|]. apply -> in_rev. apply dget_In, E.
  - apply dget_None. unfold dkeys. rewrite map_rev, <- in_rev. apply dget_None, E.
Qed.

(** ** get_param *)
Lemma get_param_keys s p ids l : get_param s p ids = Ok l -> map fst l = ids.
Proof.
  unfold get_param. destruct (length (get_possible_states s) =? 1).
  - revert l. induction ids as [|i ids IH]; cbn; intros l H; [now injection H as <-|].
    destruct (declared s p i "default"); [|discriminate]. cbn in H.
    destruct (mapr _ ids) as [l1|]; [|discriminate]. cbn in H. injection H as <-. cbn.
    now rewrite (IH _ eq_refl).
  - destruct (negb (nodupb ids)); [discriminate|].
    revert l. induction ids as [|i ids IH]; cbn; intros l H; [now injection H as <-|].
    destruct (state_of s i) as [st|]; [|discriminate]. destruct (declared s p i st); [|discriminate]. cbn in H.
    destruct (mapr _ ids) as [l1|]; [|discriminate]. cbn in H. injection H as <-. cbn.
    now rewrite (IH _ eq_refl).
Qed.

(** the state whose parameters apply *)
Definition effective_state (s : story) (i : val) : option string :=
  if length (get_possible_states s) =? 1
  then (if mem i (dkeys (st_params s)) then Some "default"%string else None)
  else state_of s i.

Lemma get_param_values s p ids l : get_param s p ids = Ok l ->
  forall i q, In (i, q) l -> exists st, effective_state s i = Some st /\ declared s p i st = Some q.
Proof.
  unfold get_param, effective_state. destruct (length (get_possible_states s) =? 1).
  - revert l. induction ids as [|j ids IH]; cbn; intros l H i q Hi; [injection H as <-; destruct Hi|].
    destruct (declared s p j "default") as [q'|] eqn:D; [|discriminate]. cbn in H.
    destruct (mapr _ ids) as [l1|]; [|discriminate]. cbn in H. injection H as <-.
    destruct Hi as [[= <- <-]|Hi]; [|eapply IH; eauto].
    exists "default"%string. split; [|exact D].
    unfold declared in D. destruct (dget j (st_params s)) eqn:E; [|discriminate].
    apply dget_Some_key, mem_In in E. now rewrite E.
  - destruct (negb (nodupb ids)); [discriminate|].
    revert l. induction ids as [|j ids IH]; cbn; intros l H i q Hi; [injection H as <-; destruct Hi|].
    destruct (state_of s j) as [st|] eqn:Es; [|discriminate].
    destruct (declared s p j st) as [q'|] eqn:D; [|discriminate]. cbn in H.
    destruct (mapr _ ids) as [l1|]; [|discriminate]. cbn in H. injection H as <-.
    destruct Hi as [[= <- <-]|Hi]; [|eapply IH; eauto]. eauto.
Qed.

(** ** reset_timers *)
Lemma reindex_like_labels {A B} (s : list (val * A)) (obs : list (val * B)) r :
  reindex_like s obs = Ok r -> map fst r = map fst obs.
Proof.
  unfold reindex_like. destruct (list_eqb (map fst s) (map fst obs)) eqn:E.
  - apply list_eqb_eq in E. intros [= <-]. rewrite map_map. cbn. rewrite <- E. reflexivity.
  - destruct (negb (nodupb (map fst s))); [discriminate|]. intros [= <-].
    rewrite map_map. reflexivity.
Qed.

Lemma tgen_labels g obs out g' : tgen_generate g obs = Ok (out, g') -> map fst out = map fst obs.
Proof.
  destruct g as [v|y|f k]; cbn [tgen_generate].
  - intros [= <- _]. rewrite map_map. reflexivity.
  - unfold cyclic_generate. destruct (draws uniform _ _) as [us st1].
    destruct (draws Rng.beta _ _) as [bs st2]. intros H. apply bind_ok in H. destruct H as ([ts y'] & H & E).
    injection E as <- _. apply bind_ok in H. destruct H as (ts' & H & E). injection E as <- _.
    eapply reindex_like_labels; eauto.
  - intros [= <- _]. rewrite map_map. reflexivity.
Qed.

Definition reset_ids (s : story) (oids : option (list val)) : list val :=
  index_difference (match oids with None => st_ids s | Some l => l end) (st_forced s).

Lemma reset_spec s g oids s' g' : reset_timers s g oids = Ok (s', g') ->
  static s s' /\ st_forced s' = st_forced s /\ (forall i, state_of s' i = state_of s i) /\
  (forall i, ~ In i (reset_ids s oids) -> remaining_of s' i = remaining_of s i) /\
  (reset_ids s oids = [] -> s' = s /\ g' = g) /\
  (reset_ids s oids <> [] -> exists act out,
     get_param s Activity (reset_ids s oids) = Ok act /\ tgen_generate g act = Ok (out, g') /\
     map fst out = reset_ids s oids /\
     (forall i, In i (reset_ids s oids) -> In i (st_ids s)) /\
     (NoDup (reset_ids s oids) -> forall i a, In (i, a) act ->
        exists t, In (i, t) out /\
          remaining_of s' i = Some (if Qeq_bool a 0 then Some (-1)%Z else t))).
Proof.
  unfold reset_timers. fold (reset_ids s oids). set (ids := reset_ids s oids).
  destruct ids as [|x l] eqn:Eids.
  { intros [= <- <-]. split; [apply static_refl|]. split; [reflexivity|]. split; [reflexivity|].
    split; [reflexivity|]. split; [auto|]. congruence. }
  rewrite <- Eids. intros H. apply bind_ok in H. destruct H as (act & Ha & H).
  apply bind_ok in H. destruct H as ([out g1] & Hg & H).
  destruct (known s ids) eqn:K; [|discriminate]. cbn [negb] in H.
  set (nt := map _ (combine act out)) in H.
  injection H as <- <-.
  pose proof (get_param_keys _ _ _ _ Ha) as Ka. pose proof (tgen_labels _ _ _ _ Hg) as Ko.
  assert (L : length act = length out).
  { transitivity (length (map fst act)); [now rewrite map_length|]. rewrite <- Ko. now rewrite map_length. }
  assert (Knt : map fst nt = ids).
  { rewrite <- Ka. unfold nt. rewrite map_map. clear - L.
    revert out L. induction act as [|[i a] act IH]; intros [|[j t] out] L; try discriminate; [reflexivity|].
    cbn. f_equal. apply IH. now injection L. }
  change (with_timer s _) with (retimed (fun i st r => (st, match dget_last i nt with Some t => t | None => r end)) s).
  split; [apply retimed_static|]. split; [reflexivity|].
  split; [intros i; apply retimed_state; reflexivity|].
  split.
  { intros i Hi. unfold remaining_of. rewrite retimed_dget.
    unfold dget_last. rewrite (proj2 (dget_None i (rev nt))).
    - destruct (dget i (st_timer s)) as [[st r]|]; reflexivity.
    - unfold dkeys. rewrite map_rev, <- in_rev, Knt. exact Hi. }
  split; [congruence|]. intros _.
  exists act, out. split; [exact Ha|]. split; [exact Hg|]. split; [congruence|].
  split; [apply known_spec; exact K|].
  intros Nd i a Hia.
  destruct (dget_fst_combine act out i) with (b := a) as ([j t] & Hc & Hd); auto.
  { now rewrite Ka. }
  { apply In_dget; [unfold dkeys; now rewrite Ka|exact Hia]. }
  exists t.
  assert (j = i).
  { clear - Hc Ko L. revert out Ko L Hc. induction act as [|[i0 a0] act IH]; intros [|[j0 t0] out] Ko L Hc; try discriminate; [destruct Hc|].
    cbn in *. injection Ko as K1 K2. destruct Hc as [[= -> -> -> ->]|Hc]; [congruence|].
    eapply IH; eauto. }
  subst j. split; [eapply in_combine_r; eauto|].
  unfold remaining_of. rewrite retimed_dget. rewrite dget_last_NoDup by (unfold dkeys; now rewrite Knt).
  assert (Hs : In i (st_ids s)).
  { eapply known_spec; [exact K|]. rewrite <- Ka. change i with (fst (i, a)). now apply in_map. }
  destruct (dget i (st_timer s)) as [[st r]|] eqn:Et; [|apply dget_None in Et; contradiction].
  cbn. f_equal.
  assert (E : dget i nt = Some (if Qeq_bool a 0 then Some (-1)%Z else t)).
  { unfold nt. specialize (Hd _ (fun z => if Qeq_bool (snd (fst z)) 0 then Some (-1)%Z else snd (snd z))).
    cbn in Hd. rewrite <- Hd. f_equal. apply map_ext. intros [[i1 a1] [j1 t1]]. reflexivity. }
  rewrite E. reflexivity.
Qed.

(** ** counters as lookups *)
Lemma counter_iff w a i r s : nth_error (w_stories w) a = Some s -> NoDup (st_ids s) ->
  (counter w a i r <-> remaining_of s i = Some r).
Proof.
  intros Hs Nd. unfold counter, remaining_of. split.
  - intros (s0 & st & H0 & Hi). assert (s0 = s) by congruence. subst.
    rewrite (In_dget _ _ _ Nd Hi). reflexivity.
  - intros H. destruct (dget i (st_timer s)) as [[st r0]|] eqn:E; [|discriminate].
    cbn in H. injection H as <-. exists s, st. split; [exact Hs|]. apply dget_In, E.
Qed.

Lemma in_state_iff w a i st s : nth_error (w_stories w) a = Some s -> NoDup (st_ids s) ->
  (in_state w a i st <-> state_of s i = Some st).
Proof.
  intros Hs Nd. unfold in_state, state_of. split.
  - intros (s0 & r & H0 & Hi). assert (s0 = s) by congruence. subst.
    rewrite (In_dget _ _ _ Nd Hi). reflexivity.
  - intros H. destruct (dget i (st_timer s)) as [[st0 r0]|] eqn:E; [|discriminate].
    cbn in H. injection H as <-. exists s, r0. split; [exact Hs|]. apply dget_In, E.
Qed.

Lemma due_iff s i : NoDup (st_ids s) -> (In i (due_members s) <-> remaining_of s i = Some (Some 0%Z)).
Proof.
  intros Nd. unfold due_members, remaining_of. rewrite in_map_iff. split.
  - intros ([j [st r]] & <- & H). apply filter_In in H. destruct H as [H E]. cbn in *.
    rewrite (In_dget _ _ _ Nd H). cbn. destruct r as [z|]; [|discriminate].
    apply Z.eqb_eq in E. now subst.
  - intros H. destruct (dget i (st_timer s)) as [[st r]|] eqn:E; [|discriminate]. cbn in H.
    injection H as ->. exists (i, (st, Some 0%Z)). split; [reflexivity|].
    apply filter_In. split; [apply dget_In, E|reflexivity].
Qed.

Lemma active_spec s : active_inactive_ids s =
  (due_members s, map fst (filter (fun x => negb (is_due x)) (st_timer s))).
Proof. reflexivity. Qed.

Lemma inactive_iff s i : NoDup (st_ids s) ->
  (In i (snd (active_inactive_ids s)) <->
   exists r, remaining_of s i = Some r /\ r <> Some 0%Z).
Proof.
  intros Nd. unfold active_inactive_ids, remaining_of. cbn [snd]. rewrite in_map_iff. split.
  - intros ([j [st r]] & <- & H). apply filter_In in H. destruct H as [H E]. cbn in *.
    rewrite (In_dget _ _ _ Nd H). exists r. split; [reflexivity|]. intros ->. discriminate.
  - intros (r & H & N). destruct (dget i (st_timer s)) as [[st r0]|] eqn:E; [|discriminate]. cbn in H.
    injection H as ->. exists (i, (st, r)). split; [reflexivity|].
    apply filter_In. split; [apply dget_In, E|]. unfold is_due. cbn. destruct r as [z|]; [|reflexivity].
    destruct (Z.eqb_spec z 0); [subst; congruence|reflexivity].
Qed.

(** ** Heaps *)
Lemma nth_error_set_nth {A} i j (x : A) l :
  nth_error (set_nth i x l) j = if i =? j then (match nth_error l j with Some _ => Some x | None => None end)
                                else nth_error l j.
Proof.
  revert i j. induction l as [|y l IH]; intros [|i] [|j]; cbn; try reflexivity.
  - destruct (i =? j); reflexivity.
  - apply IH.
Qed.

Lemma set_nth_length {A} i (x : A) l : length (set_nth i x l) = length l.
Proof. revert i. induction l as [|y l IH]; intros [|i]; cbn; auto. Qed.
