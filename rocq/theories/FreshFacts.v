(** Every random number used is used up (C109). *)
From Verif Require Import Base BaseFacts Rng Utils Relationship Frame Gens Clock GensProps SpecRandom RandomGens SpecFresh.

Lemma drawn_0 r : drawn 0 r r.
Proof. unfold drawn. rewrite Nat.add_0_r. now destruct r. Qed.
Lemma drawn_add n m r r1 r2 : drawn n r r1 -> drawn m r1 r2 -> drawn (n + m) r r2.
Proof. unfold drawn. intros -> ->. cbn. f_equal. lia. Qed.
Lemma agree_le n m r r2 : n <= m -> agree m r r2 -> agree n r r2.
Proof. intros H A k K. apply A. lia. Qed.
Lemma agree_after n m r r2 r1 r21 : agree (n + m) r r2 -> drawn n r r1 -> drawn n r2 r21 -> agree m r1 r21.
Proof.
  unfold drawn. intros A -> -> k K. cbn. rewrite <- !Nat.add_assoc. apply A. lia.
Qed.

Definition pure {A} (f : rng -> A * rng) : rng -> result (A * rng) := fun r => Ok (f r).

Lemma uu_ret {A} (x : A) : uses_up (fun r => Ok (x, r)).
Proof.
  intros r y r' [= <- <-]. exists 0. split; [apply drawn_0|]. intros r2 _. exists r2. split; [reflexivity|apply drawn_0].
Qed.
Lemma uu_err {A} e : uses_up (fun r => @Err (A * rng) e).
Proof. intros r y r' H. discriminate. Qed.
Lemma uu_bind {A B} (f : rng -> result (A * rng)) (g : A -> rng -> result (B * rng)) :
  uses_up f -> (forall x, uses_up (g x)) -> uses_up (fun r => let! (x, r') := f r in g x r').
Proof.
  intros F G r y r' H. apply bind_ok in H as ([x r1] & E1 & E2).
  destruct (F _ _ _ E1) as (n & D1 & K1). destruct (G x _ _ _ E2) as (m & D2 & K2). exists (n + m). split; [eapply drawn_add; eauto|].
  intros r2 Ag. destruct (K1 r2) as (r21 & F1 & D21); [eapply agree_le; [|exact Ag]; lia|].
  destruct (K2 r21) as (r22 & F2 & D22); [eapply agree_after; eauto|].
  exists r22. rewrite F1. cbn [bind]. split; [exact F2|eapply drawn_add; eauto].
Qed.
Lemma uu_ext {A} (f g : rng -> result (A * rng)) : (forall r, f r = g r) -> uses_up f -> uses_up g.
Proof.
  intros E F r x r' H. rewrite <- E in H. destruct (F _ _ _ H) as (n & D & K). exists n. split; [exact D|].
  intros r2 Ag. destruct (K r2 Ag) as (r2' & H2 & D2). exists r2'. rewrite <- E. auto.
Qed.
(** a step that does not touch the source *)
Lemma uu_lift {A B} (v : result A) (g : A -> rng -> result (B * rng)) :
  (forall x, uses_up (g x)) -> uses_up (fun r => let! x := v in g x r).
Proof. intros G. destruct v as [x|e]; [exact (G x)|apply uu_err]. Qed.
(** [let (x, r') := f r in ...] *)
Lemma uu_let {A B} (f : rng -> A * rng) (g : A -> rng -> result (B * rng)) :
  uses_up (pure f) -> (forall x, uses_up (g x)) -> uses_up (fun r => let (x, r') := f r in g x r').
Proof.
  intros F G. apply (uu_ext (fun r => let! (x, r') := pure f r in g x r')); [|now apply uu_bind].
  intros r. unfold pure. cbn [bind]. now destruct (f r).
Qed.
Lemma uu_let_pure {A B} (f : rng -> A * rng) (g : A -> rng -> B * rng) :
  uses_up (pure f) -> (forall x, uses_up (pure (g x))) -> uses_up (pure (fun r => let (x, r') := f r in g x r')).
Proof.
  intros F G. apply (uu_ext (fun r => let (x, r') := f r in pure (g x) r')); [|now apply uu_let].
  intros r. unfold pure. now destruct (f r).
Qed.
Lemma uu_pure_ret {A} (x : A) : uses_up (pure (fun r => (x, r))).
Proof. apply uu_ret. Qed.

Lemma uu_next : uses_up (pure next_raw).
Proof.
  intros r x r' [= <- <-]. exists 1. split; [unfold drawn; f_equal; lia|]. intros r2 A. exists (mkRng (tape r2) (S (pos r2))).
  unfold pure, next_raw. split; [|unfold drawn; f_equal; lia]. do 2 f_equal. specialize (A 0 Nat.lt_0_1). rewrite !Nat.add_0_r in A. auto.
Qed.
Lemma uu_uniform : uses_up (pure uniform).
Proof. unfold uniform. apply uu_let_pure; [apply uu_next|intros; apply uu_pure_ret]. Qed.
Lemma uu_beta : uses_up (pure beta).
Proof. unfold beta. apply uu_let_pure; [apply uu_next|intros; apply uu_pure_ret]. Qed.
Lemma uu_randint n : uses_up (pure (randint n)).
Proof. unfold randint. apply uu_let_pure; [apply uu_next|intros; apply uu_pure_ret]. Qed.
Lemma uu_draws {A} (f : rng -> A * rng) n : uses_up (pure f) -> uses_up (pure (draws f n)).
Proof.
  intros F. induction n as [|n IH]; cbn [draws]; [apply uu_pure_ret|].
  apply (uu_let_pure f (fun x r1 => let (xs, r2) := draws f n r1 in (x :: xs, r2))); [exact F|]. intros x.
  apply (uu_let_pure (draws f n) (fun xs r2 => (x :: xs, r2))); [exact IH|]. intros. apply uu_pure_ret.
Qed.
Lemma uu_choice n size : uses_up (choice n size).
Proof. unfold choice. destruct (_ && _); [apply uu_err|]. apply uu_draws, uu_randint. Qed.
Lemma uu_choice_p n size p : uses_up (choice_p n size p).
Proof.
  unfold choice_p. destruct (_ && _); [apply uu_err|]. destruct (negb _); [apply uu_err|].
  apply (uu_lift (no_nan p) (fun qs r => if existsb (fun q => Qltb q 0) qs then Err ValueError
       else if negb (Qeq_bool (qsum qs) 1) then Err ValueError else Ok (draws (choice_p_one qs) size r))).
  intros qs. destruct (existsb _ _); [apply uu_err|]. destruct (negb _); [apply uu_err|]. apply uu_draws.
  unfold choice_p_one. apply uu_let_pure; [apply uu_uniform|intros; apply uu_pure_ret].
Qed.
Lemma uu_shuffle {A} n : forall l : list A, uses_up (pure (shuffle n l)).
Proof.
  induction n as [|n IH]; intros l; cbn [shuffle]; [apply uu_pure_ret|].
  apply (uu_let_pure (randint (length l)) (fun i r1 => match nth_error l i with
      | None => ([], r1)
      | Some x => let (xs, r2) := shuffle n (remove_nth i l) r1 in (x :: xs, r2)
      end)); [apply uu_randint|]. intros i. destruct (nth_error l i) as [x|]; [|apply uu_pure_ret].
  apply (uu_let_pure (shuffle n (remove_nth i l)) (fun xs r2 => (x :: xs, r2))); [apply IH|intros; apply uu_pure_ret].
Qed.
Lemma uu_permutation {A} (l : list A) : uses_up (pure (permutation l)).
Proof. apply uu_shuffle. Qed.
Lemma uu_choice_norep n size : uses_up (choice_norep n size).
Proof.
  unfold choice_norep. destruct (n <? size); [apply uu_err|].
  apply (uu_let (permutation (seq 0 n)) (fun xs r' => Ok (firstn size xs, r'))); [apply uu_permutation|intros; apply uu_ret].
Qed.

(** ** Relationships *)
Lemma uu_pick_one rel ov : uses_up (fun r => pick_one rel r ov).
Proof.
  unfold pick_one. destruct (to_ids rel) as [|t [|t' ts]]; [apply uu_ret..|].
  apply (uu_lift _ (fun proba r => let! (idxs, r') := choice_p (length (t :: t' :: ts)) 1 proba r in
      match idxs with
      | idx :: _ => match nth_error (t :: t' :: ts) idx with Some t => Ok (Some (idx, t), r') | None => Err IndexError end
      | [] => Err IndexError
      end)). intros proba. apply uu_bind; [apply uu_choice_p|]. intros [|idx l]; [apply uu_err|].
  destruct (nth_error _ idx); [apply uu_ret|apply uu_err].
Qed.
Lemma uu_pick_many rel amount : uses_up (fun r => let! (indices, tos, r') := pick_many rel r amount in Ok ((indices, tos), r')).
Proof.
  unfold pick_many. set (n := Nat.min _ _).
  apply (uu_ext (fun r => let! (indices, r') := choice_norep (length (to_ids rel)) n r in
                          let! tos := take indices (to_ids rel) in Ok ((indices, tos), r'))).
  { intros r. destruct (choice_norep _ _ r) as [[idx r']|e]; cbn [bind]; [|reflexivity]. now destruct (take idx (to_ids rel)). }
  apply uu_bind; [apply uu_choice_norep|]. intros idx.
  apply (uu_lift (take idx (to_ids rel)) (fun tos r' => Ok ((idx, tos), r'))). intros. apply uu_ret.
Qed.
Lemma uu_select_results g discard ov reqs : uses_up (select_results g discard ov reqs).
Proof.
  induction reqs as [|[i f] reqs IH]; cbn [select_results]; [apply uu_ret|].
  apply (uu_bind (fun st => match dget f g with
        | Some rel =>
            let! (p, st') := pick_one rel st ov in
            match p with
            | None => Ok (if discard then [] else [mkSel i f None VNA], st')
            | Some (idx, picked) => Ok ([mkSel i f (Some idx) picked], st')
            end
        | None => Ok (if discard then [] else [mkSel i f None VNA], st)
        end) (fun row st1 => let! (rows, st2) := select_results g discard ov reqs st1 in Ok (row ++ rows, st2))).
  - destruct (dget f g) as [rel|]; [|apply uu_ret]. apply (uu_bind (fun st => pick_one rel st ov)); [apply uu_pick_one|].
    intros [[idx picked]|]; apply uu_ret.
  - intros row. apply uu_bind; [exact IH|]. intros rows. apply uu_ret.
Qed.
Lemma uu_one_to_one out : uses_up (pure (one_to_one_filter out)).
Proof.
  unfold one_to_one_filter.
  apply (uu_let_pure (permutation (map s_req (filter (fun s => negb (is_na (s_to s))) out)))
    (fun perm st' => (dedup_to [] (loc_rows s_req perm (filter (fun s => negb (is_na (s_to s))) out)) ++ filter (fun s => is_na (s_to s)) out, st')));
    [apply uu_permutation|intros; apply uu_pure_ret].
Qed.
Lemma uu_gather reqs froms : uses_up (pure (gather reqs froms)).
Proof.
  induction froms as [|f froms IH]; cbn [gather]; [apply uu_pure_ret|]. set (df := filter _ reqs).
  apply (uu_let_pure (permutation (map q_idx df)) (fun perm st1 => let (rest, st2) := gather reqs froms st1 in
      ((f, loc_rows q_idx perm df) :: rest, st2))); [apply uu_permutation|]. intros perm.
  apply (uu_let_pure (gather reqs froms) (fun rest st2 => ((f, loc_rows q_idx perm df) :: rest, st2))); [exact IH|intros; apply uu_pure_ret].
Qed.
Lemma uu_all_picks g all_reqs : uses_up (all_picks g all_reqs).
Proof.
  induction all_reqs as [|[f qs] rest IH]; cbn [all_picks]; [apply uu_ret|]. destruct (dget f g) as [rel|]; [|exact IH].
  apply (uu_lift (cap_to_total (map (fun q => Z.of_nat (q_qty q)) qs) (Z.of_nat (rel_len rel)))
    (fun caps st => let! (idxs, tos, st1) := pick_many rel st (nsum (map Z.to_nat caps)) in
          let! (ps, st2) := all_picks g rest st1 in
          Ok (split_picks f qs (map Z.to_nat caps) tos idxs ++ ps, st2))). intros caps.
  apply (uu_ext (fun st => let! (p, st1) := (let! (indices, tos, r') := pick_many rel st (nsum (map Z.to_nat caps)) in Ok ((indices, tos), r')) in
          let! (ps, st2) := all_picks g rest st1 in
          Ok (split_picks f qs (map Z.to_nat caps) (snd p) (fst p) ++ ps, st2))).
  { intros st. destruct (pick_many _ _ _) as [[[idxs tos] st1]|e]; reflexivity. }
  apply (uu_bind _ (fun p st1 => let! (ps, st2) := all_picks g rest st1 in
          Ok (split_picks f qs (map Z.to_nat caps) (snd p) (fst p) ++ ps, st2))); [apply uu_pick_many|].
  intros p. apply uu_bind; [exact IH|]. intros ps. apply uu_ret.
Qed.


Lemma fresh_select_one r reqs pop discard o2o ov rows r' : select_one r reqs pop discard o2o ov = Ok (rows, r') ->
  exists n, drawn n (r_state r) (r_state r') /\
    forall st, agree n (r_state r) st -> exists st', drawn n st st' /\
      select_one (with_state r st) reqs pop discard o2o ov = Ok (rows, with_state r' st').
Proof.
  unfold select_one. cbn [with_state grouped r_state r_seed].
  destruct (negb (overridden_ok r ov)) eqn:Eov; [discriminate|]. set (reqs' := match reqs with Some l => l | None => _ end).
  set (F := fun st => let! (out, st1) := select_results (grouped r) discard ov reqs' st in
                      Ok (match out with [] => ([], st1) | _ => if o2o then one_to_one_filter out st1 else (out, st1) end)).
  assert (U : uses_up F).
  { apply (uu_bind _ (fun out st1 => Ok (match out with [] => ([], st1) | _ => if o2o then one_to_one_filter out st1 else (out, st1) end)));
      [apply uu_select_results|]. intros [|x out]; [apply uu_ret|]. destruct o2o; [apply uu_one_to_one|apply uu_ret]. }
  intros H. apply bind_ok in H as ([out st1] & E1 & H).
  destruct (match out with [] => ([], st1) | _ => if o2o then one_to_one_filter out st1 else (out, st1) end) as [out2 st2] eqn:E2.
  injection H as <- <-. cbn [r_state].
  assert (EF : F (r_state r) = Ok (out2, st2)) by (unfold F; rewrite E1; cbn [bind]; now rewrite E2).
  destruct (U _ _ _ EF) as (n & D & K). exists n. split; [exact D|]. intros st A. destruct (K st A) as (st' & EF2 & D2). exists st'.
  split; [exact D2|]. unfold F in EF2. apply bind_ok in EF2 as ([out3 st3] & E3 & E4). injection E4 as E4.
  match goal with |- context [overridden_ok ?x ov] => change (overridden_ok x ov) with (overridden_ok r ov) end. rewrite Eov. rewrite E3. cbn [bind]. rewrite E4. reflexivity.
Qed.

Lemma fresh_select_many r reqs pop discard rows r' : select_many r reqs pop discard = Ok (rows, r') ->
  exists n, drawn n (r_state r) (r_state r') /\
    forall st, agree n (r_state r) st -> exists st', drawn n st st' /\
      select_many (with_state r st) reqs pop discard = Ok (rows, with_state r' st').
Proof.
  unfold select_many. cbn [with_state grouped r_state r_seed]. set (froms := uniq _).
  set (F := fun st => let (all_reqs, st1) := gather reqs froms st in all_picks (grouped r) all_reqs st1).
  assert (U : uses_up F).
  { apply (uu_let (gather reqs froms) (fun all_reqs st1 => all_picks (grouped r) all_reqs st1)); [apply uu_gather|intros; apply uu_all_picks]. }
  destruct (gather reqs froms (r_state r)) as [all st1] eqn:E1. intros H. apply bind_ok in H as ([out st2] & E2 & H).
  injection H as <- <-. cbn [r_state].
  assert (EF : F (r_state r) = Ok (out, st2)) by (unfold F; now rewrite E1).
  destruct (U _ _ _ EF) as (n & D & K). exists n. split; [exact D|]. intros st A. destruct (K st A) as (st' & EF2 & D2). exists st'.
  split; [exact D2|]. unfold F in EF2. destruct (gather reqs froms st) as [all2 st3]. rewrite EF2. reflexivity.
Qed.

(** ** Generators *)
Lemma uu_np m size : uses_up (np_generate m size).
Proof.
  unfold np_generate. destruct (size <? 0)%Z; [apply uu_err|]. destruct m as [|a [p|]|f].
  - apply (uu_let (draws uniform (Z.to_nat size)) (fun us st' => Ok (map vq us, st'))); [apply uu_draws, uu_uniform|intros; apply uu_ret].
  - apply (uu_bind _ (fun idx st' => let! vs := take idx a in Ok (vs, st'))); [apply uu_choice_p|]. intros idx.
    apply (uu_lift (take idx a) (fun vs st' => Ok (vs, st'))). intros. apply uu_ret.
  - apply (uu_bind _ (fun idx st' => let! vs := take idx a in Ok (vs, st'))); [apply uu_choice|]. intros idx.
    apply (uu_lift (take idx a) (fun vs st' => Ok (vs, st'))). intros. apply uu_ret.
  - apply (uu_let (draws next_raw (Z.to_nat size)) (fun xs st' => Ok (map (fun x => VNum (f x)) xs, st'))); [apply uu_draws, uu_next|intros; apply uu_ret].
Qed.
Lemma uu_assign {A B} (set1 : list A) (set2 : list B) : uses_up (make_random_assign set1 set2).
Proof.
  unfold make_random_assign. apply (uu_bind _ (fun idx r' => let! chosen := take idx set2 in Ok (combine set1 chosen, r'))); [apply uu_choice|].
  intros idx. apply (uu_lift (take idx set2) (fun c r' => Ok (combine set1 c, r'))). intros. apply uu_ret.
Qed.

Lemma fresh_cyclic y obs ts y' : cyclic_generate y obs = Ok (ts, y') ->
  exists n, drawn n (y_state y) (y_state y') /\
    forall st, agree n (y_state y) st -> exists st', drawn n st st' /\
      cyclic_generate (timer_with y st) obs = Ok (ts, timer_with y' st').
Proof.
  unfold cyclic_generate. cbn [timer_with y_state y_config y_bins y_profile].
  set (low := filter (fun o => is_low (snd o)) obs). set (high := filter (fun o => is_high (snd o)) obs).
  set (F := fun st => let (us, st1) := draws uniform (length low) st in let (bs, st2) := draws beta (length high) st1 in Ok ((us, bs), st2)).
  assert (U : uses_up F).
  { apply (uu_let (draws uniform (length low)) (fun us st1 => let (bs, st2) := draws beta (length high) st1 in Ok ((us, bs), st2)));
      [apply uu_draws, uu_uniform|]. intros us.
    apply (uu_let (draws beta (length high)) (fun bs st2 => Ok ((us, bs), st2))); [apply uu_draws, uu_beta|intros; apply uu_ret]. }
  destruct (draws uniform (length low) (y_state y)) as [us st1] eqn:E1. destruct (draws beta (length high) st1) as [bs st2] eqn:E2.
  intros H. apply bind_ok in H as (timers & E3 & H). injection H as <- <-. cbn [y_state].
  assert (EF : F (y_state y) = Ok ((us, bs), st2)) by (unfold F; now rewrite E1, E2).
  destruct (U _ _ _ EF) as (n & D & K). exists n. split; [exact D|]. intros st A. destruct (K st A) as (st' & EF2 & D2). exists st'.
  split; [exact D2|]. unfold F in EF2. destruct (draws uniform (length low) st) as [us2 st3]. destruct (draws beta (length high) st3) as [bs2 st4].
  injection EF2 as -> -> ->. 
  match goal with |- context [low_slot ?x] => change (low_slot x) with (low_slot y); change (high_slot x) with (high_slot y) end.
  rewrite E3. reflexivity.
Qed.

Lemma fresh_step g size vs g' st : source_of g = Some st -> gen_step g size = Ok (vs, g') ->
  exists n st', drawn n st st' /\ g' = with_source g st' /\
    forall st2, agree n st st2 -> exists st2', drawn n st2 st2' /\ gen_step (with_source g st2) size = Ok (vs, with_source g st2').
Proof.
  destruct g as [| |m s [b|]|x f l s| | | | |]; cbn [source_of with_source]; try discriminate; intros [= <-] H; cbn [gen_step] in *.
  - apply bind_ok in H as ([us st'] & E & H). injection H as <- <-. destruct (uu_np m size _ _ _ E) as (n & D & K).
    exists n, st'. split; [exact D|]. split; [reflexivity|]. intros st2 A. destruct (K st2 A) as (r2 & E2 & D2). exists r2. rewrite E2. auto.
  - apply bind_ok in H as ([us st'] & E & H). injection H as <- <-. destruct (uu_np m size _ _ _ E) as (n & D & K).
    exists n, st'. split; [exact D|]. split; [reflexivity|]. intros st2 A. destruct (K st2 A) as (r2 & E2 & D2). exists r2. rewrite E2. auto.
  - destruct (size <? 0)%Z; [discriminate|]. pose proof (uu_draws _ (Z.to_nat size) uu_next) as U. specialize (U s).
    unfold pure in U. destruct (draws next_raw (Z.to_nat size) s) as [xs st'] eqn:E. injection H as <- <-.
    destruct (U _ _ eq_refl) as (n & D & K). exists n, st'. split; [exact D|]. split; [reflexivity|]. intros st2 A.
    destruct (K st2 A) as (r2 & [= E2] & D2). exists r2. rewrite E2. auto.
Qed.

Lemma fresh_generator h i g st size vs h' : nth_error h i = Some g -> source_of g = Some st ->
  gen_generate h i size = Ok (vs, h') ->
  exists n st', drawn n st st' /\ nth_error h' i = Some (with_source g st') /\
    (forall j, j <> i -> nth_error h' j = nth_error h j) /\
    forall h2 st2, nth_error h2 i = Some (with_source g st2) -> agree n st st2 ->
      exists st2' h2', drawn n st2 st2' /\ gen_generate h2 i size = Ok (vs, h2') /\ nth_error h2' i = Some (with_source g st2').
Proof.
  intros Hi Hs. unfold gen_generate. cbn [heap_generate]. rewrite Hi. intros H.
  assert (H1 : (let! (vs, g') := gen_step g size in Ok (vs, set_nth i g' h)) = Ok (vs, h')) by (destruct g; try discriminate Hs; exact H).
  clear H. apply bind_ok in H1 as ([vs1 g'] & E & H). injection H as <- <-.
  destruct (fresh_step g size _ _ _ Hs E) as (n & st' & D & -> & K). exists n, st'. split; [exact D|].
  split; [rewrite nth_error_set_nth, Nat.eqb_refl, Hi; reflexivity|].
  split; [intros j Hj; rewrite nth_error_set_nth; destruct (Nat.eqb_spec i j); [congruence|reflexivity]|].
  intros h2 st2 H2 A. destruct (K st2 A) as (st2' & D2 & E2). exists st2'. eexists. split; [exact D2|].
  rewrite H2. split.
  - transitivity (let! (vs, g') := gen_step (with_source g st2) size in Ok (vs, set_nth i g' h2)).
    + destruct g as [| |m s [b|]|x f l s| | | | |]; try discriminate Hs; reflexivity.
    + rewrite E2. reflexivity.
  - rewrite nth_error_set_nth, Nat.eqb_refl, H2. reflexivity.
Qed.
