(** Model of the stories of tests/scenarios/test_snd.py: agents who buy SIMs from dealers, dealers who buy them
    in bulk from distributors, distributors who restock, agents who go on holidays and write reviews. *)
From Verif Require Import Base Rng Utils Frame Gens Clock World Story Ops Helpers SpecOps SpecSupply.

(** operations.Apply(source_fields="SIM_BULK", f=lambda s: s.map(len), f_args="series"), test_snd.py:277-279.
    Simplification: cells that are not lists are not modelled. *)
Definition map_len (d : df) : result df :=
  let! rows := mapr (fun row => match snd row with
                                | [VList l] => Ok (fst row, [vnat (length l)])
                                | _ => Err Unmodelled
                                end) (df_rows d) in
  Ok (mkDf ["result"%string] rows).

(** ** The objects of the scenario, by their position in the circus.  The stories are numbered in the order in
    which test_snd.py:46-56 create them. *)
Record snd_names := mkSnd {
  n_distros : nat; n_dealers : nat; n_agents : nat; n_reviews : nat;                                     (* populations *)
  n_distro_sims : nat; n_dealer_sims : nat; n_agent_sims : nat; n_dealers_of : nat; n_distro_of : nat;   (* relationships *)
  n_to_restock : nat; n_bulk_size : nat; n_agent_name : nat;                                             (* attributes *)
  n_sim_ids : nat; n_review_ids : nat; n_texts : nat; n_going : nat; n_returning : nat;                  (* generators *)
  n_fmt : Z -> val
}.
Definition restock : nat := 0.
Definition purchases : nat := 1.
Definition bulk_purchases : nat := 2.
Definition start_holidays : nat := 3.
Definition stops_holidays : nat := 4.
Definition reviews : nat := 5.

(** test_snd.py:103-126, the distributor_restock story *)
Definition snd_restock (c : snd_names) : list op :=
  [OpTimestamp "DATETIME" true (n_fmt c);
   OpLookup (n_distros c) "DISTRIBUTOR_ID" [("SIMS_TO_RESTOCK", "SIMS_TO_RESTOCK")]%string;
   OpGenerate (n_sim_ids c) "NEW_SIMS_IDS" (Some "SIMS_TO_RESTOCK"%string);
   OpRelAddGrouped (n_distro_sims c) "DISTRIBUTOR_ID" "NEW_SIMS_IDS";
   OpAttrAdd (n_to_restock c) "DISTRIBUTOR_ID" "SIMS_TO_RESTOCK" true;
   OpFieldLogger "distributor_restock" ["DATETIME"; "DISTRIBUTOR_ID"; "SIMS_TO_RESTOCK"]%string []].

(** test_snd.py:329-370, the purchases story ([isnull] is pandas.isnull, SpecSupply.v) *)
Definition snd_purchases (c : snd_names) : list op :=
  [OpTimestamp "DATETIME" true (n_fmt c);
   OpSelectOne (n_dealers_of c) "AGENT" "DEALER" false false false None;
   OpSelectOne (n_dealer_sims c) "DEALER" "SOLD_SIM" true true false None;
   OpApply ["SOLD_SIM"%string] ["FAILED_SALE"%string] (series_f isnull);
   OpForce purchases "AGENT" (Some "FAILED_SALE"%string);
   OpFieldLogger "purchases" [] [];
   OpDropRow "FAILED_SALE";
   OpRelAdd (n_agent_sims c) "AGENT" "SOLD_SIM"].

(** test_snd.py:249-293, the bulk_purchases story *)
Definition snd_bulk_purchases (c : snd_names) : list op :=
  [OpTimestamp "DATETIME" true (n_fmt c);
   OpSelectOne (n_distro_of c) "DEALER_ID" "DISTRIBUTOR" false false false None;
   OpLookup (n_dealers c) "DEALER_ID" [("BULK_BUY_SIZE", "BULK_BUY_SIZE")]%string;
   OpSelectMany (n_distro_sims c) "DISTRIBUTOR" "SIM_BULK" "BULK_BUY_SIZE" true true;
   OpRelAddGrouped (n_dealer_sims c) "DEALER_ID" "SIM_BULK";
   OpApply ["SIM_BULK"%string] ["NUMBER_OF_SIMS"%string] map_len;
   OpAttrAdd (n_to_restock c) "DISTRIBUTOR" "NUMBER_OF_SIMS" false;
   OpForce restock "DISTRIBUTOR" None;
   OpFieldLogger "bulk_purchases" ["DEALER_ID"; "DISTRIBUTOR"; "NUMBER_OF_SIMS"]%string []].

(** test_snd.py:412-423, the agent_start_holidays story *)
Definition snd_start_holidays (c : snd_names) : list op :=
  [OpTransit purchases "AGENT" (inr "on_holiday"%string) None;
   OpReset stops_holidays (Some "AGENT"%string);
   OpTimestamp "TIME" true (n_fmt c);
   OpGenerate (n_going c) "STATES" None;
   OpFieldLogger "holidays" [] []].

(** test_snd.py:425-434, the agent_stops_holidays story *)
Definition snd_stops_holidays (c : snd_names) : list op :=
  [OpTransit purchases "AGENT" (inr "default"%string) None;
   OpTimestamp "TIME" true (n_fmt c);
   OpGenerate (n_returning c) "STATES" None;
   OpFieldLogger "holidays" [] []].

(** test_snd.py:470-492, the agent_reviews story *)
Definition snd_reviews (c : snd_names) : list op :=
  [OpTimestamp "DATETIME" true (n_fmt c);
   OpLookup (n_agents c) "AGENT" [("AGENT_NAME", "AGENT_NAME")]%string;
   OpGenerate (n_review_ids c) "REVIEW_ID" None;
   OpGenerate (n_texts c) "REVIEW_TEXT" None;
   OpPopUpdate (n_reviews c) "REVIEW_ID" [("DATE", "DATETIME"); ("TEXT", "REVIEW_TEXT"); ("AGENT_ID", "AGENT"); ("AGENT_NAME", "AGENT_NAME")]%string;
   OpFieldLogger "reviews" [] []].
