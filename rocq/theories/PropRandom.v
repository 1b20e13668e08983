(** Properties of random choices (C98-C103): which random number decides what, and in which
    proportion of the cases. *)
From Coq Require Import Qround Qabs.
From Verif Require Import Base BaseFacts Rng Utils Relationship SpecRelationship Frame Gens Clock SpecClock Attribute World Story Ops Fs Circus
  SpecStory SpecOps StoryFacts StoryExec StoryMore StoryProps StoryWorld StoryWorld2 WorldProps SpecWorld StorySamples Samples PropClock PropStory
  SpecRandom RandomFacts RandomRel RandomGens RandomTimers RandomBack.
From Coq Require Import Lqa.
Local Open Scope nat_scope.

(** C98: a request on a from id with several relations uses the next random number of the
    relationship, the other requests use none ... *)
Theorem C98_selection_by_weight r reqs pop ov rows r' :
  reachable r -> select_one r (Some reqs) pop false false ov = Ok (rows, r') ->
  drawn (undecided r reqs) (r_state r) (r_state r') /\
  forall j i f t, nth_error rows j = Some (i, f, t) -> 2 <= length (tos_stored r f) ->
    (forall t' w, In (t', w) (weighted ov (stored_from r f)) -> (0 <= w)%Q) ->
    proper_weights (map snd (weighted ov (stored_from r f))) /\
    selects (weighted ov (stored_from r f)) (coming (r_state r) (undecided r (firstn j reqs))) t.
Proof. exact (select_one_selects r reqs pop ov rows r'). Qed.
Print Assumptions C98_selection_by_weight.

(** ... which selects [t] with the probability weight of [t] / total weight: up to the number of
    entries for [t], that share of the 2^53 numbers does. *)
Theorem C98_selection_frequency l t : proper_weights (map snd l) ->
  exists n, chances (fun u => selects l u t) n /\
    (Qabs (inject_Z n - inject_Z (Zpos two53) * (weight_of t l / qsum (map snd l))) <= inject_Z (entries_of t l))%Q.
Proof. exact (selects_chances l t). Qed.
Print Assumptions C98_selection_frequency.

(** discard_empty drops the requests without answer and changes nothing else. *)
Theorem C98_discard_empty r reqs pop ov rows r' :
  reachable r -> no_na_tos r ->
  select_one r (Some reqs) pop true false ov = Ok (rows, r') <->
  exists rows0, select_one r (Some reqs) pop false false ov = Ok (rows0, r') /\
    rows = filter (fun x => negb (is_na (snd x))) rows0.
Proof. exact (select_one_discard r reqs pop ov rows r'). Qed.
Print Assumptions C98_discard_empty.

Example C98_example : exists rows r',
  select_one shop (Some [(s_ "1", s_ "A"); (s_ "2", s_ "B"); (s_ "3", s_ "A")]) false false false None = Ok (rows, r') /\
  undecided shop [(s_ "1", s_ "A"); (s_ "2", s_ "B")] = 1 /\
  stored_from shop (s_ "A") = [(s_ "x", 1); (s_ "z", 1); (s_ "t", 0)]%Q /\
  (2 * weight_of (s_ "x") (stored_from shop (s_ "A")) == qsum (map snd (stored_from shop (s_ "A"))))%Q.
Proof.
  apply (ok_ex no_rows); [vm_compute; reflexivity|]. split; [vm_compute; reflexivity|].
  split; vm_compute; reflexivity.
Qed.

(** C99: a trigger uses one random number per observation, in order, and fires when the number
    is below the probability of the observation ... *)
Theorem C99_trigger_draws h proba st obs vs d' h' :
  dgen_generate h (DTrigger proba st) obs = Ok (vs, d', h') ->
  h' = h /\ length vs = length obs /\ (exists st', d' = DTrigger proba st' /\ drawn (length obs) st st') /\
  forall j o, nth_error obs j = Some o ->
    exists p b, proba o = Ok p /\ nth_error vs j = Some (VBool b) /\ (b = true <-> (coming st j < p)%Q).
Proof. exact (trigger_exact h proba st obs vs d' h'). Qed.
Print Assumptions C99_trigger_draws.

(** ... which is the case for the share [p] of the numbers. *)
Theorem C99_trigger_frequency p : (0 <= p)%Q -> (p <= 1)%Q ->
  exists n, chances (fun u => u < p)%Q n /\ (Qabs (inject_Z n - inject_Z (Zpos two53) * p) < 1)%Q.
Proof. exact (chances_below p). Qed.
Print Assumptions C99_trigger_frequency.

Definition half_trigger : dgen := DTrigger (fun _ => Ok (1 # 2)%Q) (random_state stream 1).
Example C99_example : exists vs d' h', dgen_generate [] half_trigger [s_ "a"; s_ "b"; s_ "c"; s_ "d"] = Ok (vs, d', h') /\
  In (VBool true) vs /\ In (VBool false) vs.
Proof.
  assert (E : is_ok (dgen_generate [] half_trigger [s_ "a"; s_ "b"; s_ "c"; s_ "d"]) = true) by (vm_compute; reflexivity).
  destruct (dgen_generate [] half_trigger [s_ "a"; s_ "b"; s_ "c"; s_ "d"]) as [[[vs d'] h']|e] eqn:D; [|discriminate].
  exists vs, d', h'. split; [reflexivity|].
  assert (F : vs = fst (fst (ok_or (([], half_trigger), []) (dgen_generate [] half_trigger [s_ "a"; s_ "b"; s_ "c"; s_ "d"])))) by now rewrite D.
  assert (V : In (VBool true) vs /\ In (VBool false) vs); [|exact V].
  rewrite F. split; vm_compute; tauto.
Qed.

(** C100 *)
Theorem C100_back_to_default_draws a w l w' s ops judge :
  execute a w = (Ok l, w') -> distinct_members w -> sound_states w a ->
  nth_error (w_stories w) a = Some s -> st_ops s = ops ++ [OpBack a judge] ->
  (forall o, In o ops -> changes_states a o = false) -> uniform_generator w judge -> due_members s <> [] ->
  exists d1 l1 w1 jst,
    run_chain ops (story_rows (st_field s) (due_members s)) (at_start a w) = (Ok (d1, l1), w1) /\
    nth_error (w_gens w1) judge = Some (GNumpy NpUniform jst None) /\
    (forall i st, ~ In i (away s (df_index d1)) -> (in_state w' a i st <-> in_state w a i st)) /\
    (forall k i st, nth_error (away s (df_index d1)) k = Some i -> in_state w a i st ->
       exists q, back_probability_in s i st q /\
         ((coming jst k < q)%Q -> in_state w' a i "default"%string) /\
         (~ (coming jst k < q)%Q -> in_state w' a i st)).
Proof. exact (w_back_exact a w l w' s ops judge). Qed.
Print Assumptions C100_back_to_default_draws.

Example C100_example :
  exists l w' s, execute 0 (busy_town logging) = (Ok l, w') /\ distinct_members (busy_town logging) /\
    sound_states (busy_town logging) 0 /\ uniform_generator (busy_town logging) 3 /\
    nth_error (w_stories (busy_town logging)) 0 = Some s /\ st_ops s = logging ++ [OpBack 0 3] /\
    due_members s = [s_ "A"; s_ "C"] /\ away s [s_ "A"; s_ "C"] = [s_ "A"].
Proof.
  assert (E : exists l w', execute 0 (busy_town logging) = (Ok l, w') /\ True)
    by (apply (ran_ex []); [vm_compute; reflexivity|exact I]).
  destruct E as (l & w' & E & _). exists l, w'. eexists. split; [exact E|].
  split; [unfold busy_town; apply after_distinct; eapply C12_members_distinct, town_built|].
  split; [apply states_by_check; vm_compute; reflexivity|].
  split; [exists (random_state stream 1234); reflexivity|].
  split; [vm_compute; reflexivity|]. split; [reflexivity|]. split; vm_compute; reflexivity.
Qed.

(** C101: generators of weighted choices and of uniform numbers. *)
Theorem C101_weighted_choice a ps size st vs st' :
  np_generate (NpChoice a (Some (map Some ps))) size st = Ok (vs, st') ->
  proper_weights ps /\ length ps = length a /\ Z.of_nat (length vs) = size /\ drawn (length vs) st st' /\
  forall j v, nth_error vs j = Some v -> selects (combine a ps) (coming st j) v.
Proof. exact (choice_exact a ps size st vs st'). Qed.
Print Assumptions C101_weighted_choice.

Theorem C101_uniform size st vs st' :
  np_generate NpUniform size st = Ok (vs, st') ->
  Z.of_nat (length vs) = size /\ drawn (length vs) st st' /\
  forall j v, nth_error vs j = Some v -> v = vq (coming st j).
Proof. exact (uniform_exact size st vs st'). Qed.
Print Assumptions C101_uniform.

Example C101_example :
  exists vs st', np_generate (NpChoice [s_ "a"; s_ "b"; s_ "c"] (Some (map Some [1 # 4; 0; 3 # 4]%Q))) 6 (random_state stream 1) = Ok (vs, st') /\
    In (s_ "a") vs /\ In (s_ "c") vs /\ ~ In (s_ "b") vs.
Proof.
  apply (ok_ex ([], random_state stream 1)); [vm_compute; reflexivity|].
  split; [vm_compute; tauto|]. split; [vm_compute; tauto|].
  vm_compute. intuition discriminate.
Qed.

(** C102: no random number is used twice and none is lost: asking for values in two calls or in
    one gives the same values and leaves the same world. *)
Theorem C102_generator_batches h i n m vs h' : streaming h i -> (0 <= n)%Z -> (0 <= m)%Z ->
  gen_generate h i (n + m) = Ok (vs, h') <->
  exists v1 h1 v2, gen_generate h i n = Ok (v1, h1) /\ gen_generate h1 i m = Ok (v2, h') /\ vs = v1 ++ v2.
Proof. exact (generate_split h i n m vs h'). Qed.
Print Assumptions C102_generator_batches.

Theorem C102_dependent_batches h d a b vs d' h' :
  dgen_generate h d (a ++ b) = Ok (vs, d', h') <->
  exists v1 d1 h1 v2, dgen_generate h d a = Ok (v1, d1, h1) /\ dgen_generate h1 d1 b = Ok (v2, d', h') /\ vs = v1 ++ v2.
Proof. exact (dgen_split h d a b vs d' h'). Qed.
Print Assumptions C102_dependent_batches.

Theorem C102_selection_batches r a b discard ov rows r' :
  select_one r (Some (a ++ b)) false discard false ov = Ok (rows, r') <->
  exists rows1 r1 rows2,
    select_one r (Some a) false discard false ov = Ok (rows1, r1) /\
    select_one r1 (Some b) false discard false ov = Ok (rows2, r') /\ rows = rows1 ++ rows2.
Proof. exact (select_one_app r a b discard ov rows r'). Qed.
Print Assumptions C102_selection_batches.

Definition two_draws : list gen := [GNumpy NpUniform (random_state stream 1) None; GMap 0 (MapElem (fun v => Ok v))].
Example C102_example : streaming two_draws 1 /\ is_ok (gen_generate two_draws 1 (2 + 3)) = true.
Proof.
  split; [|vm_compute; reflexivity].
  eapply str_map; [reflexivity|lia|]. eapply str_numpy. reflexivity.
Qed.

(** C103: a timer of a member of activity in (0, 2] is decided by one random number [u]: the
    position 2u/a counted in cycles, its fraction being looked up in the profile from the
    current bin on ... *)
Theorem C103_timer_draws p start cstep k y obs ts y' j i a :
  live p start cstep k y -> NoDup (map fst obs) -> cyclic_generate y obs = Ok (ts, y') ->
  nth_error obs j = Some (i, a) -> (0 < a /\ a <= 2)%Q ->
  exists c b,
    let x := (2 * coming (y_state y) (low_ones (firstn j obs)) / a)%Q in
    (inject_Z c <= x /\ x < inject_Z (c + 1))%Q /\
    b < y_bins y /\
    reached_in (weights_from p (bin_start p start cstep (Z.of_nat k)) cstep (y_bins y)) (x - inject_Z c) b /\
    nth_error ts j = Some (i, Some (Z.max 0 (Z.of_nat (y_bins y) * c + Z.of_nat b - 1))).
Proof. exact (timer_exact p start cstep k y obs ts y' j i a). Qed.
Print Assumptions C103_timer_draws.

(** ... so that over the 2^53 equally likely numbers the mean waiting time is 1/a cycles, up to
    one cycle. *)
Theorem C103_mean_timer p start cstep k y a m n : Z.of_nat n = Zpos two53 ->
  live p start cstep k y -> (0 < a /\ a <= 2)%Q ->
  exists z : nat -> Z,
    (forall i st, coming st 0 = (Z.of_nat i # two53)%Q ->
       exists y', cyclic_generate (fed_with y st) [(m, a)] = Ok ([(m, Some (z i))], y')) /\
    let bins := inject_Z (Z.of_nat (y_bins y)) in
    let mean := (average (fun i => inject_Z (z i)) n / bins)%Q in
    ((1 - (1 # two53)) / a - 1 - 1 / bins <= mean /\ mean <= (1 - (1 # two53)) / a + 1)%Q.
Proof.
  intros En Hl Ha. destruct (timer_determined y a m Ha) as (z & Hz). exists z. split; [exact Hz|].
  apply (mean_timer p start cstep k y a m z n En Hl Ha). intros i st _ Hc. now apply Hz.
Qed.
Print Assumptions C103_mean_timer.

Example C103_example : live tri monday hour 0 tri_gen /\ y_bins tri_gen = 3 /\
  exists ts y', cyclic_generate tri_gen [(s_ "a", 1 # 2); (s_ "b", 3 # 2)]%Q = Ok (ts, y') /\ length ts = 2.
Proof.
  split; [exact tri_live|]. split; [vm_compute; reflexivity|].
  apply (ok_ex ([], tri_gen)); vm_compute; reflexivity.
Qed.
