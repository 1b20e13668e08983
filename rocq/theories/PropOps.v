(** Properties of operations and chains (C13-C18, C49, C59, C85-C88). *)
From Verif Require Import Base BaseFacts Rng Utils Relationship SpecRelationship Frame Gens Clock Attribute World Story Ops
  Fs Circus SpecStory SpecOps SpecWorld Samples StorySamples OpsProps OpsColumns OpsMore WorldProps.
From Coq Require Import Permutation.

(** Relationships of a circus built through the library are [reachable]: the theorems on
    relationships (C36-C51) and those below apply to every built circus. *)
Theorem C86_relationships_reachable g w r rel :
  built g w -> nth_error (w_rels w) r = Some rel -> reachable rel.
Proof. exact (built_reachable g w r rel). Qed.
Print Assumptions C86_relationships_reachable.

(** ** Samples: three people, A and B with items in stock *)
Definition market : world :=
  calls people [CRelationship 0 "items" (Some 5%N);
                CRelAdd 0 [s_ "A"; s_ "B"; s_ "A"; s_ "A"] [s_ "x"; s_ "y"; s_ "z"; s_ "t"];
                CAttribute 0 "AGE" (Some (VValues [vz 31; vz 42; vz 53])) None None].
Lemma market_built : built stream market.
Proof.
  unfold market, people. apply built_calls; [apply built_calls; [apply built_new|]|]; repeat constructor.
Qed.
Definition visitors : df :=
  mkDf ["PERSON"; "N"; "OUT"]%string
    [(s_ "A", [s_ "A"; vz 2; VBool true]); (s_ "C", [s_ "C"; vz 1; VBool false]); (s_ "B", [s_ "B"; vz 3; VBool false])].
Definition market_rel : relationship := nth 0 (w_rels market) empty_rel.
Lemma market_rel_at : nth_error (w_rels market) 0 = Some market_rel.
Proof. apply nth_error_nth'. vm_compute. lia. Qed.
Lemma visitors_rect : rectangular visitors.
Proof.
  split; [repeat constructor; cbn; intuition discriminate|]. cbn. intros row H.
  repeat (destruct H as [<-|H]; [reflexivity|]). contradiction.
Qed.
Definition no_data : df * logs := (mkDf [] [], []).
Lemma ran_d o d w : is_ok (fst (run_op o d w)) = true ->
  run_op o d w = (Ok (fst (ok_or no_data (fst (run_op o d w))), snd (ok_or no_data (fst (run_op o d w)))), snd (run_op o d w)).
Proof. intros H. rewrite <- surjective_pairing. now apply ran. Qed.
Ltac run_example := eexists _, _, _; split; [apply ran_d; vm_compute; reflexivity|].

(** ** C13.  A chain runs its operations one after the other, stopping at the first exception;
    logs are appended. *)
Theorem C13_chain_is_sequential ops1 ops2 d w :
  match run_chain ops1 d w with
  | (Err e, w1) => run_chain (ops1 ++ ops2) d w = (Err e, w1)
  | (Ok (d1, l1), w1) =>
      match run_chain ops2 d1 w1 with
      | (Err e, w2) => run_chain (ops1 ++ ops2) d w = (Err e, w2)
      | (Ok (d2, l2), w2) => exists l, run_chain (ops1 ++ ops2) d w = (Ok (d2, l), w2) /\
          forall id, appended (dget id l1) (dget id l2) (dget id l)
      end
  end.
Proof. exact (chain_sequential ops1 ops2 d w). Qed.
Print Assumptions C13_chain_is_sequential.

Theorem C13_single o d w :
  match run_op o d w with
  | (Err e, w1) => run_chain [o] d w = (Err e, w1)
  | (Ok (d1, l1), w1) => exists l, run_chain [o] d w = (Ok (d1, l), w1) /\ forall id, dget id l = dget id l1
  end.
Proof. exact (chain_single o d w). Qed.
Print Assumptions C13_single.

Example C13_example :
  let o1 := OpFieldLogger "log" ["PERSON"]%string [] in
  let o2 := OpFieldLogger "log" ["PERSON"; "N"]%string [] in
  exists d l w', run_op (OpChain [o1; OpDropRow "OUT"; o2]) visitors market = (Ok (d, l), w') /\
    dget "log"%string l = Some (mkDf ["PERSON"; "N"]%string
      [(vz 0, [s_ "A"; VNA]); (vz 1, [s_ "C"; VNA]); (vz 2, [s_ "B"; VNA]);
       (vz 3, [s_ "C"; vz 1]); (vz 4, [s_ "B"; vz 3])]).
Proof. cbv zeta. run_example. vm_compute. reflexivity. Qed.

(** ** C14.  At every point of the chain of a story the index of the story data has distinct
    labels, all of them members acting at this step, in their order unless a select_all
    regrouped them. *)
Theorem C14_rows_of_active_members a w l w' s ops1 ops2 :
  execute a w = (Ok l, w') -> distinct_members w -> nth_error (w_stories w) a = Some s ->
  st_ops s = ops1 ++ ops2 -> due_members s <> [] ->
  exists d1 l1 w1, run_chain ops1 (story_rows (st_field s) (due_members s)) (at_start a w) = (Ok (d1, l1), w1) /\
    NoDup (df_index d1) /\ incl (df_index d1) (due_members s) /\
    ((forall o, In o ops1 -> selects_all o = false) -> sublist (df_index d1) (due_members s)).
Proof. exact (fun H D Hs Ho Hn => exec_index a w l w' s ops1 ops2 H Hs (D a s Hs) Ho Hn). Qed.
Print Assumptions C14_rows_of_active_members.

Theorem C14_no_new_rows ops d w d' l w' :
  run_chain ops d w = (Ok (d', l), w') -> NoDup (df_index d) ->
  NoDup (df_index d') /\ incl (df_index d') (df_index d) /\ length (df_rows d') <= length (df_rows d) /\
  ((forall o, In o ops -> selects_all o = false) -> sublist (df_index d') (df_index d)).
Proof. exact (chain_index ops d w d' l w'). Qed.
Print Assumptions C14_no_new_rows.

Definition market_town (ops : list op) : world :=
  calls market [visit "visits" 1 true; CSetOperations 0 ops].
Lemma market_town_built ops : built stream (market_town ops).
Proof. apply built_calls; [apply market_built|]. repeat constructor; intros l; apply Permutation_refl. Qed.
Definition sales : list op := [OpSelectOne 0 "PERSON" "ITEM" true true true None; OpFieldLogger "sales" [] []].
Example C14_example :
  let w := market_town sales in
  exists l w' s, execute 0 w = (Ok l, w') /\ distinct_members w /\ nth_error (w_stories w) 0 = Some s /\
    due_members s = [s_ "A"; s_ "B"; s_ "C"] /\
    exists lg, dget "sales"%string l = Some lg /\ df_index lg = [s_ "A"; s_ "B"].
Proof.
  cbv zeta. eexists (ok_or [] (fst (execute 0 (market_town sales)))), (snd (execute 0 (market_town sales))), _.
  split; [apply ran; vm_compute; reflexivity|].
  split; [exact (built_distinct _ _ (market_town_built sales))|].
  split; [vm_compute; reflexivity|]. split; [vm_compute; reflexivity|].
  eexists. split; vm_compute; reflexivity.
Qed.

(** select_all does change the order when a from is repeated. *)
Example C14_select_all_regroups :
  let d := mkDf ["FROM"]%string [(s_ "i", [s_ "A"]); (s_ "j", [s_ "B"]); (s_ "k", [s_ "A"])] in
  exists d' l w', run_op (OpSelectAll 0 "FROM" "ALL") d market = (Ok (d', l), w') /\
    df_index d' = [s_ "i"; s_ "k"; s_ "j"].
Proof. cbv zeta. run_example. vm_compute. reflexivity. Qed.

(** ** C15.  Side effects leave the story data alone and do not log; only loggers log. *)
Theorem C15_side_effects o d w d' l w' :
  only_side_effect o = true -> run_op o d w = (Ok (d', l), w') -> d' = d /\ l = [].
Proof. exact (side_effect_data o d w d' l w'). Qed.
Print Assumptions C15_side_effects.

Theorem C15_loggers id cols exploded d w d' l w' :
  run_op (field_logger id cols exploded) d w = (Ok (d', l), w') -> d' = d /\ w' = w.
Proof.
  exact (fun H => match logger_data _ _ _ _ _ _ _ _ H with conj H1 (conj H2 _) => conj H1 H2 end).
Qed.
Print Assumptions C15_loggers.

Theorem C15_only_loggers_log o d w d' l w' id :
  run_op o d w = (Ok (d', l), w') -> logs_to id o = false -> dget id l = None.
Proof. exact (run_op_logs o d w d' l w' id). Qed.
Print Assumptions C15_only_loggers_log.

Example C15_example :
  exists d l w', run_op (OpRelAdd 0 "PERSON" "N") visitors market = (Ok (d, l), w') /\
    only_side_effect (OpRelAdd 0 "PERSON" "N") = true /\ logs_to "log" (OpRelAdd 0 "PERSON" "N") = false /\
    exists r, nth_error (w_rels w') 0 = Some r /\ length (stored r) = 7.
Proof.
  run_example. split; [reflexivity|]. split; [reflexivity|].
  exists (nth 0 (w_rels (snd (run_op (OpRelAdd 0 "PERSON" "N") visitors market))) empty_rel).
  split; [apply nth_error_nth'; vm_compute; lia|vm_compute; reflexivity].
Qed.

(** ** C16.  Operations adding columns under fresh names. *)
Theorem C16_only_adds_columns o d w d' l w' new :
  target_columns o new -> run_op o d w = (Ok (d', l), w') -> (forall c, In c new -> ~ In c (df_cols d)) ->
  extended (keeps_every_row o) d d' new.
Proof. exact (target_extended o d w d' l w' new). Qed.
Print Assumptions C16_only_adds_columns.

(** Apply: the columns are those returned by the user's function, renamed. *)
Theorem C16_apply src named f d w d' l w' :
  run_op (OpApply src named f) d w = (Ok (d', l), w') ->
  exists sel out, select_cols d src = Ok sel /\ f sel = Ok out /\
    ((forall c, In c (rename_first (df_cols out) named) -> ~ In c (df_cols d)) -> rectangular out ->
     extended true d d' (rename_first (df_cols out) named)).
Proof. exact (apply_extended src named f d w d' l w'). Qed.
Print Assumptions C16_apply.

Example C16_example :
  exists d l w', run_op (OpLookup 0 "PERSON" [("AGE", "THEIR_AGE")]%string) visitors market = (Ok (d, l), w') /\
    target_columns (OpLookup 0 "PERSON" [("AGE", "THEIR_AGE")]%string) ["THEIR_AGE"]%string /\
    map snd (df_rows d) = [[s_ "A"; vz 2; VBool true; vz 31]; [s_ "C"; vz 1; VBool false; vz 53]; [s_ "B"; vz 3; VBool false; vz 42]].
Proof. run_example. split; [reflexivity|vm_compute; reflexivity]. Qed.

(** ** C17.  DropRow *)
Theorem C17_drop_row_keeps_false c d w d' l w' :
  run_op (OpDropRow c) d w = (Ok (d', l), w') ->
  l = [] /\ w' = w /\ df_cols d' = df_cols d /\
  df_rows d' = filter (fun row => val_eqb (cell (df_cols d) (snd row) c) (VBool false)) (df_rows d).
Proof. exact (drop_row_exact c d w d' l w'). Qed.
Print Assumptions C17_drop_row_keeps_false.

Theorem C17_drop_row_runs c d w :
  rectangular d -> In c (df_cols d) ->
  (forall row, In row (df_rows d) -> exists b, cell (df_cols d) (snd row) c = VBool b) ->
  exists d', run_op (OpDropRow c) d w = (Ok (d', []), w).
Proof. exact (drop_row_runs c d w). Qed.
Print Assumptions C17_drop_row_runs.

Example C17_example :
  rectangular visitors /\ exists d l w', run_op (OpDropRow "OUT") visitors market = (Ok (d, l), w') /\
    df_index d = [s_ "C"; s_ "B"].
Proof. split; [exact visitors_rect|]. run_example. vm_compute. reflexivity. Qed.

(** ** C18.  FieldLogger *)
Theorem C18_log_of_columns id cols d w :
  NoDup (df_cols d) -> incl cols (df_cols d) -> cols <> [] ->
  run_op (field_logger id (Some cols) []) d w =
  (Ok (d, [(id, mkDf cols (map (fun row => (fst row, map (cell (df_cols d) (snd row)) cols)) (df_rows d)))]), w).
Proof. exact (log_of_columns id cols d w). Qed.
Print Assumptions C18_log_of_columns.

Theorem C18_log_of_everything id d w :
  run_op (field_logger id None []) d w = (Ok (d, [(id, d)]), w).
Proof. exact (logger_runs id [] [] d w d eq_refl). Qed.
Print Assumptions C18_log_of_everything.

(** One line per element of the exploded lists; provided there is such an element. *)
Theorem C18_exploded_partial id cols exploded d w :
  rectangular d -> NoDup exploded -> incl cols (df_cols d) -> incl exploded (df_cols d) -> exploded <> [] ->
  same_lists d exploded -> (exists row, In row (df_rows d) /\ log_lines (df_cols d) exploded row <> 0) ->
  run_op (field_logger id (Some cols) exploded) d w =
  (Ok (d, [(id, mkDf (cols ++ exploded)
    (flat_map (fun row => map (fun k => (fst row, map (shown (df_cols d) exploded row k) (cols ++ exploded)))
       (seq 0 (log_lines (df_cols d) exploded row))) (df_rows d)))]), w).
Proof. exact (fun H1 H2 H3 H4 H5 H6 H7 => logger_runs id _ _ d w _ (emit_exploded cols exploded d H1 H2 H3 H4 H5 H6 H7)). Qed.
Print Assumptions C18_exploded_partial.

(** Without any line to write the logger raises: ValueError when the story data is empty
    (here after a drop), KeyError when all lists are empty. *)
Definition baskets (items : list val) : df :=
  mkDf ["PERSON"; "ITEMS"]%string [(s_ "A", [s_ "A"; VList items])].
Theorem C18_empty_data_refuted :
  exists cols exploded d w, rectangular d /\ incl cols (df_cols d) /\ incl exploded (df_cols d) /\
    run_op (field_logger "log" (Some cols) exploded) d w = (Err ValueError, w).
Proof.
  exists ["PERSON"]%string, ["ITEMS"]%string, (mkDf ["PERSON"; "ITEMS"]%string []), market.
  split; [split; [repeat constructor; cbn; intuition discriminate|intros row []]|].
  split; [intros c [<-|[]]; cbn; auto|]. split; [intros c [<-|[]]; cbn; auto|]. reflexivity.
Qed.
Print Assumptions C18_empty_data_refuted.

Theorem C18_empty_lists_refuted :
  exists cols exploded d w, rectangular d /\ incl cols (df_cols d) /\ incl exploded (df_cols d) /\
    same_lists d exploded /\ run_op (field_logger "log" (Some cols) exploded) d w = (Err KeyError, w).
Proof.
  exists ["PERSON"]%string, ["ITEMS"]%string, (baskets []), market.
  split; [split; [repeat constructor; cbn; intuition discriminate|intros row [<-|[]]; reflexivity]|].
  split; [intros c [<-|[]]; cbn; auto|]. split; [intros c [<-|[]]; cbn; auto|].
  split; [intros row c [<-|[]] [<-|[]]; now exists []|]. reflexivity.
Qed.
Print Assumptions C18_empty_lists_refuted.

Example C18_example :
  same_lists (baskets [s_ "x"; s_ "y"]) ["ITEMS"%string] /\
  exists d l w', run_op (field_logger "log" (Some ["PERSON"]%string) ["ITEMS"%string]) (baskets [s_ "x"; s_ "y"]) market = (Ok (d, l), w') /\
    option_map (fun lg => map snd (df_rows lg)) (dget "log"%string l) = Some [[s_ "A"; s_ "x"]; [s_ "A"; s_ "y"]].
Proof.
  split; [intros row c [<-|[]] [<-|[]]; now exists [s_ "x"; s_ "y"]|]. run_example. vm_compute. reflexivity.
Qed.

(** ** C49.  The remove operation never removes anything: it raises AttributeError. *)
Theorem C49_remove_refuted :
  exists g w r from item d, built g w /\ rectangular d /\ In from (df_cols d) /\ In item (df_cols d) /\
    exists rel f t, nth_error (w_rels w) r = Some rel /\ related rel f t /\
      In (s_ "A", [f; t]) (df_rows d) /\ run_op (OpRelRemove r from item) d w = (Err AttributeError, w).
Proof.
  exists stream, market, 0, "PERSON"%string, "ITEM"%string, (mkDf ["PERSON"; "ITEM"]%string [(s_ "A", [s_ "A"; s_ "x"])]).
  split; [exact market_built|].
  split; [split; [repeat constructor; cbn; intuition discriminate|intros row [<-|[]]; reflexivity]|].
  split; [now left|]. split; [right; now left|]. exists market_rel, (s_ "A"), (s_ "x").
  split; [exact market_rel_at|]. split; [exists 1%Q; vm_compute; tauto|]. split; [now left|]. reflexivity.
Qed.
Print Assumptions C49_remove_refuted.

Theorem C49_remove_never_works r from item d w :
  df_rows d <> [] -> run_op (OpRelRemove r from item) d w = (Err AttributeError, w).
Proof. exact (remove_raises r from item d w). Qed.
Print Assumptions C49_remove_never_works.

(** ** C59.  lookup: every row gets the current values of the attributes of its member. *)
Theorem C59_lookup_rows p f select d w d' l w' :
  run_op (OpLookup p f select) d w = (Ok (d', l), w') ->
  w' = w /\
  ((forall c, In c (map snd select) -> ~ In c (df_cols d)) -> df_cols d' = df_cols d ++ map snd select) /\
  Forall2 (fun row row' => fst row' = fst row /\ exists vs, snd row' = snd row ++ vs /\
     Forall2 (fun an v => exists t, attribute_table w p (fst an) t /\
                                    looked_up t (cell (df_cols d) (snd row) f) v) select vs)
    (df_rows d) (df_rows d').
Proof. exact (lookup_rows p f select d w d' l w'). Qed.
Print Assumptions C59_lookup_rows.

Example C59_example :
  let d := mkDf ["FRIENDS"]%string [(s_ "i", [VList [s_ "B"; s_ "A"; s_ "B"]])] in
  exists d' l w', run_op (OpLookup 0 "FRIENDS" [("AGE", "AGES")]%string) d market = (Ok (d', l), w') /\
    map snd (df_rows d') = [[VList [s_ "B"; s_ "A"; s_ "B"]; VList [vz 42; vz 31; vz 42]]].
Proof. cbv zeta. run_example. vm_compute. reflexivity. Qed.

(** ** C85.  Generated columns: the generator's values, the time stamps, the numbers of
    neighbours, row by row. *)
Theorem C85_generated_column g n d w d' l w' :
  run_op (OpGenerate g n None) d w = (Ok (d', l), w') -> ~ In n (df_cols d) ->
  exists vs gens', random_values (w_gens w) g (length (df_rows d)) None = Ok (vs, gens') /\
    adds_column d d' n vs /\ w' = set_gens gens' w.
Proof. exact (generate_adds g n d w d' l w'). Qed.
Print Assumptions C85_generated_column.

Theorem C85_timestamps n random fmt d w d' l w' :
  run_op (OpTimestamp n random fmt) d w = (Ok (d', l), w') -> ~ In n (df_cols d) ->
  exists dates c', get_timestamp (w_clock w) (length (df_rows d)) random = Ok (dates, c') /\
    adds_column d d' n (map fmt dates) /\ w' = set_clock c' w.
Proof. exact (timestamp_adds n random fmt d w d' l w'). Qed.
Print Assumptions C85_timestamps.

Theorem C85_neighbour_counts r f n d w d' l w' rel :
  run_op (OpNeighbours r f n) d w = (Ok (d', l), w') -> ~ In n (df_cols d) ->
  nth_error (w_rels w) r = Some rel -> reachable rel ->
  w' = w /\
  adds_column d d' n (map (fun row => vnat (length (tos_stored rel (cell (df_cols d) (snd row) f)))) (df_rows d)).
Proof. exact (neighbour_counts r f n d w d' l w' rel). Qed.
Print Assumptions C85_neighbour_counts.

Example C85_example :
  exists d l w', run_op (OpNeighbours 0 "PERSON" "COUNT") visitors market = (Ok (d, l), w') /\
    map (fun row => cell (df_cols d) (snd row) "COUNT") (df_rows d) = [vz 3; vz 0; vz 1].
Proof. run_example. vm_compute. reflexivity. Qed.

(** ** C86.  Selections in a chain. *)
Theorem C86_select_one r from named oto pop discard wt d w d' l w' rel :
  run_op (OpSelectOne r from named oto pop discard wt) d w = (Ok (d', l), w') ->
  nth_error (w_rels w) r = Some rel -> reachable rel -> ~ In named (df_cols d) ->
  let key row := cell (df_cols d) (snd row) from in
  exists rel' kept tos, w' = set_rels (set_nth r rel' (w_rels w)) w /\ l = [] /\ adds_cells d d' named kept tos /\
    (forall row t, In (row, t) (combine kept tos) ->
       related rel (key row) t \/ isolated rel (key row) /\ t = VNA /\ discard = false) /\
    (oto = false -> forall row, In row (df_rows d) ->
       (In row kept <-> discard = false \/ exists t, related rel (key row) t)) /\
    (oto = true -> NoDup (filter not_na tos)) /\
    (pop = false -> stored rel' = stored rel) /\
    (pop = true -> no_na_tos rel -> oto = true \/ NoDup (map key (df_rows d)) ->
       exists gone, Permutation (stored rel) (stored rel' ++ gone) /\
         Permutation (map fst gone) (filter (fun ft => not_na (snd ft)) (combine (map key kept) tos))).
Proof. exact (select_one_op r from named oto pop discard wt d w d' l w' rel). Qed.
Print Assumptions C86_select_one.

Theorem C86_select_many r from named qty pop discard d w d' l w' rel :
  run_op (OpSelectMany r from named qty pop discard) d w = (Ok (d', l), w') ->
  nth_error (w_rels w) r = Some rel -> reachable rel -> ~ In named (df_cols d) ->
  let key row := cell (df_cols d) (snd row) from in
  exists rel' kept tos ns, w' = set_rels (set_nth r rel' (w_rels w)) w /\ l = [] /\
    adds_cells d d' named kept (map VList tos) /\ length tos = length kept /\
    Forall2 (fun row n => cell (df_cols d) (snd row) qty = vnat n) (df_rows d) ns /\
    (discard = false -> forall row, In row (df_rows d) -> In row kept) /\
    (forall row n ts, In (row, n) (combine (df_rows d) ns) -> In (row, ts) (combine kept tos) -> length ts <= n) /\
    (forall f, f <> VNA ->
       let given := flat_map (fun rt => if val_eqb (key (fst rt)) f then snd rt else []) (combine kept tos) in
       let asked := nsum (map snd (filter (fun rn => val_eqb (key (fst rn)) f) (combine (df_rows d) ns))) in
       (exists left_over, Permutation (tos_stored rel f) (given ++ left_over)) /\
       length given = Nat.min asked (length (tos_stored rel f))) /\
    (pop = false -> stored rel' = stored rel) /\
    (pop = true -> NoDup (map key (df_rows d)) -> ~ In VNA (map key (df_rows d)) ->
       exists gone, Permutation (stored rel) (stored rel' ++ gone) /\
         Permutation (map fst gone) (flat_map (fun rt => map (pair (key (fst rt))) (snd rt)) (combine kept tos))) /\
    incl (stored rel') (stored rel) /\
    (forall row ts, In (row, ts) (combine kept tos) -> key row = VNA -> ts = []).
Proof. exact (select_many_op r from named qty pop discard d w d' l w' rel). Qed.
Print Assumptions C86_select_many.

Theorem C86_select_all r from named d w d' l w' rel :
  run_op (OpSelectAll r from named) d w = (Ok (d', l), w') ->
  nth_error (w_rels w) r = Some rel -> reachable rel -> homogeneous rel -> ~ In named (df_cols d) ->
  let key row := cell (df_cols d) (snd row) from in
  exists kept tos, w' = w /\ l = [] /\ df_cols d' = df_cols d ++ [named] /\ length tos = length kept /\
    df_rows d' = map (fun rt => (fst (fst rt), snd (fst rt) ++ [VList (snd rt)])) (combine kept tos) /\
    NoDup kept /\
    (forall row, In row kept <-> In row (df_rows d) /\ exists t, related rel (key row) t) /\
    (forall row ts, In (row, ts) (combine kept tos) -> Permutation ts (tos_stored rel (key row))) /\
    (NoDup (map key (df_rows d)) -> sublist kept (df_rows d)).
Proof. exact (select_all_op r from named d w d' l w' rel). Qed.
Print Assumptions C86_select_all.

Example C86_example :
  nth_error (w_rels market) 0 = Some market_rel /\ reachable market_rel /\ homogeneous market_rel /\
  (exists d l w', run_op (OpSelectOne 0 "PERSON" "ITEM" true true true None) visitors market = (Ok (d, l), w') /\
     df_index d = [s_ "A"; s_ "B"]) /\
  (exists d l w', run_op (OpSelectMany 0 "PERSON" "ITEMS" "N" true false) visitors market = (Ok (d, l), w') /\
     map (fun row => length (list_of (cell (df_cols d) (snd row) "ITEMS"))) (df_rows d) = [2; 0; 1]) /\
  (exists d l w', run_op (OpSelectAll 0 "PERSON" "ITEMS") visitors market = (Ok (d, l), w') /\
     map (fun row => cell (df_cols d) (snd row) "ITEMS") (df_rows d) = [VList [s_ "x"; s_ "z"; s_ "t"]; VList [s_ "y"]]).
Proof.
  split; [exact market_rel_at|]. split; [exact (built_reachable _ _ _ _ market_built market_rel_at)|].
  split; [left; intros f t w H; vm_compute in H; repeat (destruct H as [[= <- <- <-]|H]; [easy|]); easy|].
  split; [run_example; vm_compute; reflexivity|]. split; [run_example; vm_compute; reflexivity|].
  run_example; vm_compute; reflexivity.
Qed.

(** ** C87.  add and add_grouped store one relation per row, or per listed item. *)
Theorem C87_add_stores_rows r from item d w d' l w' rel :
  run_op (OpRelAdd r from item) d w = (Ok (d', l), w') -> nth_error (w_rels w) r = Some rel -> reachable rel ->
  exists rel', w_rels w' = set_nth r rel' (w_rels w) /\
    Permutation (stored rel') (stored rel ++
      map (fun row => (cell (df_cols d) (snd row) from, cell (df_cols d) (snd row) item, 1%Q)) (df_rows d)).
Proof. exact (rel_add_op r from item d w d' l w' rel). Qed.
Print Assumptions C87_add_stores_rows.

Theorem C87_add_grouped_stores_items r from items d w d' l w' rel :
  run_op (OpRelAddGrouped r from items) d w = (Ok (d', l), w') -> nth_error (w_rels w) r = Some rel -> reachable rel ->
  exists rel', w_rels w' = set_nth r rel' (w_rels w) /\
    Permutation (stored rel') (stored rel ++
      flat_map (fun row => map (fun t => (cell (df_cols d) (snd row) from, t, 1%Q))
                               (list_of (cell (df_cols d) (snd row) items))) (df_rows d)).
Proof. exact (rel_add_grouped_op r from items d w d' l w' rel). Qed.
Print Assumptions C87_add_grouped_stores_items.

Example C87_example :
  exists d l w', run_op (OpRelAddGrouped 0 "PERSON" "ITEMS") (baskets [s_ "n"; s_ "m"]) market = (Ok (d, l), w') /\
    length (stored (nth 0 (w_rels w') empty_rel)) = 6.
Proof. run_example. vm_compute. reflexivity. Qed.
