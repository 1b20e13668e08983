(** Random numbers are used once (C109). *)
From Verif Require Import Base BaseFacts Rng Utils Relationship SpecRelationship Frame Gens Clock SpecRandom SpecFresh SpecWorld
  Samples FreshFacts World Story FreshReset StorySamples PropClock.

(** ** C109.  A selection, a draw or a timer uses up exactly the random numbers its outcome
    depends on: whatever comes later uses fresh ones. *)
Theorem C109_select_one r reqs pop discard o2o ov rows r' : select_one r reqs pop discard o2o ov = Ok (rows, r') ->
  exists n, drawn n (r_state r) (r_state r') /\
    forall st, agree n (r_state r) st -> exists st', drawn n st st' /\
      select_one (with_state r st) reqs pop discard o2o ov = Ok (rows, with_state r' st').
Proof. exact (fresh_select_one r reqs pop discard o2o ov rows r'). Qed.
Print Assumptions C109_select_one.

Theorem C109_select_many r reqs pop discard rows r' : select_many r reqs pop discard = Ok (rows, r') ->
  exists n, drawn n (r_state r) (r_state r') /\
    forall st, agree n (r_state r) st -> exists st', drawn n st st' /\
      select_many (with_state r st) reqs pop discard = Ok (rows, with_state r' st').
Proof. exact (fresh_select_many r reqs pop discard rows r'). Qed.
Print Assumptions C109_select_many.

Theorem C109_generator h i g st size vs h' : nth_error h i = Some g -> source_of g = Some st ->
  gen_generate h i size = Ok (vs, h') ->
  exists n st', drawn n st st' /\ nth_error h' i = Some (with_source g st') /\
    (forall j, j <> i -> nth_error h' j = nth_error h j) /\
    forall h2 st2, nth_error h2 i = Some (with_source g st2) -> agree n st st2 ->
      exists st2' h2', drawn n st2 st2' /\ gen_generate h2 i size = Ok (vs, h2') /\ nth_error h2' i = Some (with_source g st2').
Proof. exact (fresh_generator h i g st size vs h'). Qed.
Print Assumptions C109_generator.

Theorem C109_timer y obs ts y' : cyclic_generate y obs = Ok (ts, y') ->
  exists n, drawn n (y_state y) (y_state y') /\
    forall st, agree n (y_state y) st -> exists st', drawn n st st' /\
      cyclic_generate (timer_with y st) obs = Ok (ts, timer_with y' st').
Proof. exact (fresh_cyclic y obs ts y'). Qed.
Print Assumptions C109_timer.

(** Resetting the timers of a story leaves its timer generator where the draws left it, so that
    the next reset, of this story or of another with the same generator, uses fresh numbers. *)
Theorem C109_reset a oids w w' s y : nth_error (w_stories w) a = Some s -> nth_error (w_tgens w) (st_tgen s) = Some (TCyclic y) ->
  story_reset a oids w = (Ok tt, w') ->
  exists obs ts y', cyclic_generate y obs = Ok (ts, y') /\ nth_error (w_tgens w') (st_tgen s) = Some (TCyclic y') /\
    map fst obs = index_difference (match oids with None => st_ids s | Some l => l end) (st_forced s).
Proof. exact (fresh_reset a oids w w' s y). Qed.
Print Assumptions C109_reset.

Theorem C109_assignment {A B} (set1 : list A) (set2 : list B) : uses_up (make_random_assign set1 set2).
Proof. exact (uu_assign set1 set2). Qed.
Print Assumptions C109_assignment.

(** The same bulk selection asked twice draws two different samples, from different numbers. *)
Definition two_requests : list req := [mkReq (s_ "i") (s_ "A") 1; mkReq (s_ "j") (s_ "A") 1].
Example C109_example : exists rows r', select_many shop two_requests false true = Ok (rows, r') /\
  0 < pos (r_state r') /\
  exists rows2 r2, select_many r' two_requests false true = Ok (rows2, r2) /\ pos (r_state r') < pos (r_state r2) /\ rows2 <> rows.
Proof.
  apply (ok_ex ([], shop)); [vm_compute; reflexivity|]. split; [vm_compute; lia|].
  apply (ok_ex ([], shop)); [vm_compute; reflexivity|]. split; [vm_compute; lia|]. vm_compute. discriminate.
Qed.
Example C109_generator_example :
  let h := [GNumpy NpUniform (random_state stream 4) None] in
  exists vs h', gen_generate h 0 3 = Ok (vs, h') /\ length vs = 3 /\
    exists vs2 h2, gen_generate h' 0 3 = Ok (vs2, h2) /\ vs2 <> vs.
Proof.
  cbv zeta. apply (ok_ex ([], [])); [vm_compute; reflexivity|]. split; [vm_compute; reflexivity|].
  apply (ok_ex ([], [])); [vm_compute; reflexivity|]. vm_compute. discriminate.
Qed.
Example C109_timer_example : exists ts y', cyclic_generate tri_gen [(s_ "A", 1%Q); (s_ "B", 5%Q)] = Ok (ts, y') /\ pos (y_state y') = 2.
Proof. apply (ok_ex ([], tri_gen)); [vm_compute; reflexivity|]. vm_compute. reflexivity. Qed.
(** Three members, reset when the story is made and twice more: the timer generator has given three, six, then nine numbers. *)
Definition cyclic_town : world := calls people [CNewTimer (TCyclic tri_gen) false; visit "visits" 2 true].
Example C109_reset_example :
  exists w1, story_reset 0 None cyclic_town = (Ok tt, w1) /\
    (exists s, nth_error (w_stories cyclic_town) 0 = Some s /\ st_tgen s = 2) /\
    option_map (fun t => match t with TCyclic y => pos (y_state y) | _ => 0 end) (nth_error (w_tgens cyclic_town) 2) = Some 3 /\
    option_map (fun t => match t with TCyclic y => pos (y_state y) | _ => 0 end) (nth_error (w_tgens w1) 2) = Some 6 /\
    option_map (fun t => match t with TCyclic y => pos (y_state y) | _ => 0 end)
      (nth_error (w_tgens (snd (story_reset 0 None w1))) 2) = Some 9.
Proof.
  exists (snd (story_reset 0 None cyclic_town)). split; [|split; [|split; [|split]]].
  - assert (E : is_ok (fst (story_reset 0 None cyclic_town)) = true) by (vm_compute; reflexivity).
    rewrite (ran tt _ _ E). now destruct (ok_or _ _).
  - eexists; split; vm_compute; reflexivity.
  - vm_compute; reflexivity.
  - vm_compute; reflexivity.
  - vm_compute; reflexivity.
Qed.
