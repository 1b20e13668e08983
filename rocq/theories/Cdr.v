(** Model of the stories of tests/scenarios/test_cdr.py: subscribers who move, call and send messages with
    their SIM cards, and top these up.  The two stories about cells are in Geography.v. *)
From Verif Require Import Base Rng Utils Frame Gens Clock World Story Ops Helpers.

(** ** The functions given to Apply *)

(** Arithmetic on cells: numbers, with NaN absorbing.  Simplification: other cells (strings, lists, booleans)
    are not modelled; floats are rationals, as everywhere. *)
Definition arith (f : Qc -> Qc -> Qc) (a b : val) : result val :=
  match a, b with
  | VNum x, VNum y => Ok (VNum (f x y))
  | VNA, VNum _ | VNum _, VNA | VNA, VNA => Ok VNA
  | _, _ => Err Unmodelled
  end.
(** operations.Apply(source_fields=[a, b], f=np.add, f_args="series"), test_cdr.py:336-338 (and np.subtract,
    492-494): the ufunc works on the two columns cell by cell; operations.py:247-250 make a frame of the
    resulting column. *)
Definition np_binary (f : Qc -> Qc -> Qc) (d : df) : result df :=
  let! rows := mapr (fun row => match snd row with
                                | [a; b] => let! v := arith f a b in Ok (fst row, [v])
                                | _ => Err Unmodelled
                                end) (df_rows d) in
  Ok (mkDf ["result"%string] rows).

(** test_cdr.py:22-35 compute_call_value: story_data[["DURATION"]] * 2, renamed. *)
Definition compute_call_value (d : df) : result df :=
  let! s := get_col d "DURATION" in
  let! rows := mapr (fun kv => let! v := arith Qcmult (snd kv) (vz 2) in Ok (fst kv, [v])) s in
  Ok (mkDf ["result"%string] rows).

(** test_cdr.py:38-43 compute_sms_value: 10 for everybody. *)
Definition compute_sms_value (d : df) : result df :=
  Ok (mkDf ["result"%string] (map (fun i => (i, [vz 10])) (df_index d))).

(** test_cdr.py:46-60 compute_cdr_type: whether both operators are "OPERATOR_0"; the booleans are mapped to
    names.  (On an empty frame story_data.apply returns the frame itself, of which no column is kept: the
    result is empty as well.) *)
Definition onnet (a b : val) : bool := keqb a (VStr "OPERATOR_0") && keqb b (VStr "OPERATOR_0").
Definition compute_cdr_type (d : df) : result df :=
  let! a := get_col d "OPERATOR_A" in
  let! b := get_col d "OPERATOR_B" in
  Ok (mkDf ["result"%string]
        (map (fun '((i, x), (_, y)) => (i, [VStr (if onnet x y then "ONNET" else "OFFNET")])) (combine a b))).

(** test_cdr.py:63-66 compute_call_status: the conjunction of two columns of booleans (others are not
    modelled), mapped to names. *)
Definition compute_call_status (d : df) : result df :=
  let! a := bool_col d "CELL_A_ACCEPTS" in
  let! b := bool_col d "CELL_B_ACCEPTS" in
  Ok (mkDf ["result"%string]
        (map (fun '(i, (x, y)) => (i, [VStr (if x && y then "OK" else "DROPPED")])) (combine (df_index d) (combine a b)))).

(** l.index(x), l[i] of python lists *)
Fixpoint position (x : val) (l : list val) : option nat :=
  match l with
  | [] => None
  | y :: l => if keqb x y then Some 0 else option_map Datatypes.S (position x l)
  end.
Definition index_of (x : val) (l : list val) : result nat :=
  match position x l with Some i => Ok i | None => Err ValueError end.
Definition at_index (l : list val) (i : nat) : result val :=
  match nth_error l i with Some v => Ok v | None => Err IndexError end.

(** test_cdr.py:83-101 do_select, on one row.  The order in which python lists the elements of a set of
    strings is not specified (it changes with the hash seed of the process): [order] is any order.  Cells that
    are not lists are not modelled. *)
Definition do_select (order : list val -> list val) (cells : list val) : result (list val) :=
  match cells with
  | [VList msisdns_a; VList operators_a; VList a_sims; VList main_accts_a; VList msisdns_b; VList operators_b; VList b_sims] =>
      let common := filter (fun o => mem o operators_b) (uniq operators_a) in
      let! (a_idx, b_idx) := match order common with
                             | operator :: _ =>
                                 let! a := index_of operator operators_a in
                                 let! b := index_of operator operators_b in Ok (a, b)
                             | [] => Ok (0, 0)
                             end in
      let! v1 := at_index msisdns_a a_idx in
      let! v2 := at_index operators_a a_idx in
      let! v3 := at_index a_sims a_idx in
      let! v4 := at_index main_accts_a a_idx in
      let! v5 := at_index msisdns_b b_idx in
      let! v6 := at_index operators_b b_idx in
      let! v7 := at_index b_sims b_idx in
      Ok [v1; v2; v3; v4; v5; v6; v7]
  | _ => Err Unmodelled
  end.
(** test_cdr.py:69-103 select_sims: story_data.apply(do_select, axis=1).  The columns of the result are called
    0, ..., 6, or, if there are no rows, as those of the argument. *)
Definition select_sims (order : list val -> list val) (d : df) : result df :=
  match df_rows d with
  | [] => Ok d
  | rows =>
      let! out := mapr (fun row => let! cells := do_select order (snd row) in Ok (fst row, cells)) rows in
      Ok (mkDf ["0"; "1"; "2"; "3"; "4"; "5"; "6"]%string out)
  end.

(** ** The objects of the scenario, by their position in the circus *)
Record cdr := mkCdr {
  k_subs : nat; k_sims_pop : nat; k_cells : nat;                                       (* populations *)
  k_friends : nat; k_sims_of : nat; k_possible_cells : nat; k_agents : nat;  (* relationships *)
  k_cell : nat; k_excitability : nat; k_operator : nat; k_msisdn : nat; k_main_acct : nat; k_health : nat;  (* attributes *)
  k_recharge : nat; k_voice : nat; k_text : nat; k_duration : nat;           (* generators *)
  k_flat : nat; k_recharge_trigger : nat;                                (* dependent generators *)
  k_topups : nat; k_calls : nat; k_sms : nat;                                (* stories *)
  k_order : list val -> list val; k_fmt : Z -> val
}.

(** test_cdr.py:284-300, the mobility story *)
Definition cdr_mobility (c : cdr) : list op :=
  [OpLookup (k_subs c) "A_ID" [("CELL", "PREV_CELL")]%string;
   OpSelectOne (k_possible_cells c) "A_ID" "NEW_CELL" false false false None;
   OpAttrUpdate (k_cell c) "A_ID" "NEW_CELL";
   OpTimestamp "TIME" true (k_fmt c);
   OpFieldLogger "mobility_logs" ["TIME"; "A_ID"; "PREV_CELL"; "NEW_CELL"]%string []].

(** test_cdr.py:323-350, the topups story *)
Definition cdr_topups (c : cdr) : list op :=
  [OpLookup (k_sims_pop c) "SIM_ID" [("MSISDN", "CUSTOMER_NUMBER"); ("OPERATOR", "OPERATOR"); ("MAIN_ACCT", "MAIN_ACCT_OLD")]%string;
   OpSelectOne (k_agents c) "SIM_ID" "AGENT" false false false None;
   OpGenerate (k_recharge c) "VALUE" None;
   OpApply ["VALUE"; "MAIN_ACCT_OLD"]%string ["MAIN_ACCT"%string] (np_binary Qcplus);
   OpAttrUpdate (k_main_acct c) "SIM_ID" "MAIN_ACCT";
   OpTimestamp "TIME" true (k_fmt c);
   OpFieldLogger "topups" ["TIME"; "CUSTOMER_NUMBER"; "AGENT"; "VALUE"; "OPERATOR"; "MAIN_ACCT_OLD"; "MAIN_ACCT"]%string []].

(** test_cdr.py:426-461 compute_ab_fields *)
Definition compute_ab_fields (c : cdr) : list op :=
  [OpTimestamp "DATETIME" true (k_fmt c);
   OpSelectOne (k_friends c) "A_ID" "B_ID" true false false None;
   OpSelectAll (k_sims_of c) "A_ID" "A_SIMS";
   OpLookup (k_sims_pop c) "A_SIMS" [("OPERATOR", "OPERATORS_A"); ("MSISDN", "MSISDNS_A"); ("MAIN_ACCT", "MAIN_ACCTS_A")]%string;
   OpSelectAll (k_sims_of c) "B_ID" "B_SIMS";
   OpLookup (k_sims_pop c) "B_SIMS" [("OPERATOR", "OPERATORS_B"); ("MSISDN", "MSISDNS_B")]%string;
   OpApply ["MSISDNS_A"; "OPERATORS_A"; "A_SIMS"; "MAIN_ACCTS_A"; "MSISDNS_B"; "OPERATORS_B"; "B_SIMS"]%string
           ["MSISDN_A"; "OPERATOR_A"; "SIM_A"; "MAIN_ACCT_OLD"; "MSISDN_B"; "OPERATOR_B"; "SIM_B"]%string (select_sims (k_order c));
   OpApply ["OPERATOR_A"; "OPERATOR_B"]%string ["TYPE"%string] compute_cdr_type].

(** test_cdr.py:464-488 compute_cell_status *)
Definition compute_cell_status (c : cdr) : list op :=
  [OpLookup (k_subs c) "A_ID" [("CELL", "CELL_A"); ("EXCITABILITY", "EXCITABILITY_A")]%string;
   OpLookup (k_subs c) "B_ID" [("CELL", "CELL_B"); ("EXCITABILITY", "EXCITABILITY_B")]%string;
   OpLookup (k_cells c) "CELL_A" [("HEALTH", "CELL_A_HEALTH")]%string;
   OpLookup (k_cells c) "CELL_B" [("HEALTH", "CELL_B_HEALTH")]%string;
   OpGenerateDep (k_flat c) "CELL_A_ACCEPTS" "CELL_A_HEALTH";
   OpGenerateDep (k_flat c) "CELL_B_ACCEPTS" "CELL_B_HEALTH";
   OpApply ["CELL_A_ACCEPTS"; "CELL_B_ACCEPTS"]%string ["STATUS"%string] compute_call_status].

(** test_cdr.py:491-499 update_accounts *)
Definition update_accounts (c : cdr) : list op :=
  [OpApply ["MAIN_ACCT_OLD"; "VALUE"]%string ["MAIN_ACCT_NEW"%string] (np_binary Qcminus);
   OpAttrUpdate (k_main_acct c) "SIM_A" "MAIN_ACCT_NEW"].

(** test_cdr.py:502-512 trigger_topups *)
Definition trigger_topups (c : cdr) : list op :=
  [OpGenerateDep (k_recharge_trigger c) "SHOULD_TOP_UP" "MAIN_ACCT_NEW";
   OpForce (k_topups c) "SIM_A" (Some "SHOULD_TOP_UP"%string)].

(** test_cdr.py:515-545 get_bursty *)
Definition get_bursty (c : cdr) : list op :=
  [OpGenerateDep (k_flat c) "A_GETTING_BURSTY" "EXCITABILITY_A";
   OpTransit (k_calls c) "A_ID" (inr "excited"%string) (Some "A_GETTING_BURSTY"%string);
   OpTransit (k_sms c) "A_ID" (inr "excited"%string) (Some "A_GETTING_BURSTY"%string);
   OpGenerateDep (k_flat c) "B_GETTING_BURSTY" "EXCITABILITY_B";
   OpTransit (k_calls c) "B_ID" (inr "excited"%string) (Some "B_GETTING_BURSTY"%string);
   OpTransit (k_sms c) "B_ID" (inr "excited"%string) (Some "B_GETTING_BURSTY"%string);
   OpReset (k_calls c) (Some "B_ID"%string);
   OpReset (k_sms c) (Some "B_ID"%string)].

(** test_cdr.py:547-569, the calls story *)
Definition cdr_calls (c : cdr) : list op :=
  [OpChain (compute_ab_fields c); OpChain (compute_cell_status c);
   OpGenerate (k_voice c) "PRODUCT" None;
   OpGenerate (k_duration c) "DURATION" None;
   OpApply ["DURATION"; "DATETIME"; "TYPE"]%string ["VALUE"%string] compute_call_value;
   OpChain (update_accounts c); OpChain (trigger_topups c); OpChain (get_bursty c);
   OpFieldLogger "voice_cdr" ["DATETIME"; "MSISDN_A"; "MSISDN_B"; "STATUS"; "DURATION"; "VALUE"; "CELL_A"; "OPERATOR_A"; "CELL_B"; "OPERATOR_B";
                              "TYPE"; "PRODUCT"]%string []].

(** test_cdr.py:571-592, the sms story *)
Definition cdr_sms (c : cdr) : list op :=
  [OpChain (compute_ab_fields c); OpChain (compute_cell_status c);
   OpGenerate (k_text c) "PRODUCT" None;
   OpApply ["DATETIME"; "TYPE"]%string ["VALUE"%string] compute_sms_value;
   OpChain (update_accounts c); OpChain (trigger_topups c); OpChain (get_bursty c);
   OpFieldLogger "sms_cdr" ["DATETIME"; "MSISDN_A"; "MSISDN_B"; "STATUS"; "VALUE"; "CELL_A"; "OPERATOR_A"; "CELL_B"; "OPERATOR_B";
                            "TYPE"; "PRODUCT"]%string []].
