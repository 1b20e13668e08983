{
 "claims": [
  {
   "property": "C01",
   "status": "proved",
   "theorems": [
    "C01_active_rows",
    "C01_due_iff_zero",
    "C01_due_in_order",
    "C01_population_order",
    "C01_nobody",
    "C01_first_log"
   ],
   "note": ""
  },
  {
   "property": "C02",
   "status": "proved",
   "theorems": [
    "C02_fires_on_time"
   ],
   "note": ""
  },
  {
   "property": "C03",
   "status": "proved",
   "theorems": [
    "C03_inactive_stays"
   ],
   "note": ""
  },
  {
   "property": "C04",
   "status": "proved",
   "theorems": [
    "C04_force_by_operation",
    "C04_force_wins"
   ],
   "note": ""
  },
  {
   "property": "C05",
   "status": "proved",
   "theorems": [
    "C05_self_force"
   ],
   "note": ""
  },
  {
   "property": "C06",
   "status": "proved",
   "theorems": [
    "C06_at_most_once"
   ],
   "note": ""
  },
  {
   "property": "C07",
   "status": "proved",
   "theorems": [
    "C07_reset_timers"
   ],
   "note": ""
  },
  {
   "property": "C08",
   "status": "proved",
   "theorems": [
    "C08_constant_period"
   ],
   "note": ""
  },
  {
   "property": "C09",
   "status": "proved",
   "theorems": [
    "C09_transit_local",
    "C09_param_of_current_state",
    "C09_undeclared_state_refuted"
   ],
   "note": "Proved for declared states; transit_to_state also accepts undeclared states, after which the next automatic reset of the member raises KeyError (_undeclared_state_refuted)."
  },
  {
   "property": "C10",
   "status": "partial",
   "theorems": [
    "C10_back_to_default_partial",
    "C10_dropped_row_refuted"
   ],
   "note": "Exact for the rows that reach the end of the chain (_partial); members whose row is dropped never go back to default (_dropped_row_refuted)."
  },
  {
   "property": "C11",
   "status": "partial",
   "theorems": [
    "C11_user_reset_partial",
    "C11_other_story_reset_partial",
    "C11_own_reset_refuted"
   ],
   "note": "Proved for resets from outside any running step and from another story (_partial); a reset made by the story's own chain is decremented at the end of the same step, so a 0 timer is lost (_own_reset_refuted)."
  },
  {
   "property": "C12",
   "status": "proved",
   "theorems": [
    "C12_members_distinct",
    "C12_members_fixed",
    "C12_unknown_ids_raise"
   ],
   "note": ""
  },
  {
   "property": "C13",
   "status": "proved",
   "theorems": [
    "C13_chain_is_sequential",
    "C13_single"
   ],
   "note": ""
  },
  {
   "property": "C14",
   "status": "proved",
   "theorems": [
    "C14_rows_of_active_members",
    "C14_no_new_rows"
   ],
   "note": ""
  },
  {
   "property": "C15",
   "status": "proved",
   "theorems": [
    "C15_side_effects",
    "C15_loggers",
    "C15_only_loggers_log"
   ],
   "note": ""
  },
  {
   "property": "C16",
   "status": "proved",
   "theorems": [
    "C16_only_adds_columns",
    "C16_apply"
   ],
   "note": ""
  },
  {
   "property": "C17",
   "status": "proved",
   "theorems": [
    "C17_drop_row_keeps_false",
    "C17_drop_row_runs"
   ],
   "note": ""
  },
  {
   "property": "C18",
   "status": "partial",
   "theorems": [
    "C18_log_of_columns",
    "C18_log_of_everything",
    "C18_exploded_partial",
    "C18_empty_data_refuted",
    "C18_empty_lists_refuted"
   ],
   "note": "Exact for plain logs and, when at least one element is to be logged, for exploded ones (_partial); with nothing to log the exploded logger raises ValueError (empty story data) or KeyError (only empty lists) (_refuted)."
  },
  {
   "property": "C19",
   "status": "proved",
   "theorems": [
    "C19_run_steps",
    "C19_run_completes"
   ],
   "note": "The steps of a completed run are those of its trace of executions, and the run completes whenever these executions do."
  },
  {
   "property": "C20",
   "status": "proved",
   "theorems": [
    "C20_log_files"
   ],
   "note": "Folder content is exact: one file per emitting log id, nothing else, nothing changed outside the folder."
  },
  {
   "property": "C21",
   "status": "proved",
   "theorems": [
    "C21_crash_prefix"
   ],
   "note": "For every prefix of the writes, the last write cut anywhere between two lines; runs that raise are included."
  },
  {
   "property": "C22",
   "status": "proved",
   "theorems": [
    "C22_refuses",
    "C22_deletes",
    "C22_deletes_and_runs"
   ],
   "note": "Both halves, for every circus, folder and file system."
  },
  {
   "property": "C23",
   "status": "partial",
   "theorems": [
    "C23_refuted",
    "C23_same_columns"
   ],
   "note": "False in general (_refuted): two loggers sharing a log id with different columns. Proved when all loggers of the id list the same columns (_same_columns)."
  },
  {
   "property": "C24",
   "status": "proved",
   "theorems": [
    "C24_population_refused",
    "C24_story_refused",
    "C24_generator_refused",
    "C24_names_unique",
    "C24_names_kept",
    "C24_new_generator"
   ],
   "note": "Refusals leave the circus unchanged; names are unique in every built circus and keep their meaning."
  },
  {
   "property": "C25",
   "status": "proved",
   "theorems": [
    "C25_order_independent"
   ],
   "note": "For any permutation of the logs of each execution of a whole run."
  },
  {
   "property": "C26",
   "status": "proved",
   "theorems": [
    "C26_random_timestamps",
    "C26_fixed_timestamps",
    "C26_total",
    "C26_subsecond_refuted"
   ],
   "note": "For every clock; a clock step below one second makes the call raise (_refuted)."
  },
  {
   "property": "C27",
   "status": "proved",
   "theorems": [
    "C27_date_after_ticks",
    "C27_listeners_advanced",
    "C27_registered_once"
   ],
   "note": ""
  },
  {
   "property": "C28",
   "status": "proved",
   "theorems": [
    "C28_profile_follows_clock",
    "C28_cdf_shape",
    "C28_periodic",
    "C28_registered_generator"
   ],
   "note": ""
  },
  {
   "property": "C29",
   "status": "partial",
   "theorems": [
    "C29_aligned_construction",
    "C29_terminates",
    "C29_last_bin_diverges",
    "C29_always_terminates_refuted"
   ],
   "note": "Terminates and aligns on the clock's grid, terminates before the last bin, loops for ever inside the last one (_refuted)."
  },
  {
   "property": "C30",
   "status": "proved",
   "theorems": [
    "C30_valid_timers"
   ],
   "note": ""
  },
  {
   "property": "C31",
   "status": "partial",
   "theorems": [
    "C31_timer_bin_partial",
    "C31_auto_reset_partial",
    "C31_initial_timer_refuted",
    "C31_zero_delay_refuted"
   ],
   "note": "After an automatic reset the member acts in a bin of positive weight, unless the delay is 0 or wraps a whole cycle (_partial); the initial timer and zero delays can hit zero-weight bins (_refuted)."
  },
  {
   "property": "C32",
   "status": "partial",
   "theorems": [
    "C32_same_class_partial",
    "C32_fails_exactly",
    "C32_mixed_refuted",
    "C32_swapped_refuted"
   ],
   "note": "The comment in the code is false: mixing activities below and above 2 for one label raises or swaps timers (_refuted). _fails_exactly characterises the failures."
  },
  {
   "property": "C33",
   "status": "proved",
   "theorems": [
    "C33_latest_date_before",
    "C33_non_positive_step_diverges"
   ],
   "note": ""
  },
  {
   "property": "C34",
   "status": "proved",
   "theorems": [
    "C34_activity_rate",
    "C34_zero_refuted"
   ],
   "note": "For n <> 0; activity(0, per) raises ZeroDivisionError (_refuted)."
  },
  {
   "property": "C35",
   "status": "proved",
   "theorems": [
    "C35_work_hours",
    "C35_rejects"
   ],
   "note": ""
  },
  {
   "property": "C36",
   "status": "proved",
   "theorems": [
    "C36_add_relations_exact",
    "C36_add_relations_total"
   ],
   "note": "For every reachable relationship; totality stated separately."
  },
  {
   "property": "C37",
   "status": "partial",
   "theorems": [
    "C37_remove_relations_refuted",
    "C37_remove_relations_exact",
    "C37_remove_relations_partial"
   ],
   "note": "False as stated: remove_relations for an unknown from adds weight-0 relations (_refuted). _exact is the complete description, _partial the property for froms that have relations."
  },
  {
   "property": "C38",
   "status": "proved",
   "theorems": [
    "C38_relations_well_formed"
   ],
   "note": ""
  },
  {
   "property": "C39",
   "status": "partial",
   "theorems": [
    "C39_get_relations_partial",
    "C39_get_relations_refuted",
    "C39_neighbourhood_size",
    "C39_unique_tos"
   ],
   "note": "get_relations: false for ids mixing strings and numbers (_refuted), exact for homogeneous ids (_partial). Sizes and unique_tos in full."
  },
  {
   "property": "C40",
   "status": "proved",
   "theorems": [
    "C40_select_one_rows",
    "C40_select_one_aligned",
    "C40_select_one_succeeds",
    "C40_override_incomplete",
    "C40_override_succeeds"
   ],
   "note": ""
  },
  {
   "property": "C41",
   "status": "proved",
   "theorems": [
    "C41_one_to_one"
   ],
   "note": ""
  },
  {
   "property": "C42",
   "status": "partial",
   "theorems": [
    "C42_select_one_pop_partial",
    "C42_select_one_without_pop",
    "C42_select_one_pop_refuted"
   ],
   "note": "False without one_to_one when a from is requested twice (_refuted); proved for one_to_one or distinct froms."
  },
  {
   "property": "C43",
   "status": "proved",
   "theorems": [
    "C43_sales_conserve",
    "C43_no_item_sold_twice"
   ],
   "note": ""
  },
  {
   "property": "C44",
   "status": "proved",
   "theorems": [
    "C44_zero_weight_not_selected",
    "C44_single_relation_refuted"
   ],
   "note": "Holds from two relations on; a single relation is picked whatever its weight (_refuted)."
  },
  {
   "property": "C45",
   "status": "proved",
   "theorems": [
    "C45_cap_to_total"
   ],
   "note": ""
  },
  {
   "property": "C46",
   "status": "proved",
   "theorems": [
    "C46_select_many_quantities",
    "C46_select_many_total"
   ],
   "note": ""
  },
  {
   "property": "C47",
   "status": "partial",
   "theorems": [
    "C47_select_many_pop_partial",
    "C47_select_many_without_pop",
    "C47_select_many_pop_refuted",
    "C47_select_many_pop_each"
   ],
   "note": "False when a from is requested twice in the call (_refuted); proved for distinct froms. Without condition, what disappears is what exactly one request of each from was given (C47_select_many_pop_each)."
  },
  {
   "property": "C48",
   "status": "proved",
   "theorems": [
    "C48_select_many_keeps_requests"
   ],
   "note": ""
  },
  {
   "property": "C49",
   "status": "partial",
   "theorems": [
    "C49_remove_refuted",
    "C49_remove_never_works"
   ],
   "note": "False: the operation calls the method remove, which Relationship does not have, and raises AttributeError for all non-empty story data (_refuted, _never_works)."
  },
  {
   "property": "C50",
   "status": "proved",
   "theorems": [
    "C50_add_grouped_exact",
    "C50_add_grouped_total"
   ],
   "note": ""
  },
  {
   "property": "C51",
   "status": "partial",
   "theorems": [
    "C51_select_all_partial",
    "C51_select_all_refuted"
   ],
   "note": "False for ids mixing strings and numbers (_refuted); proved for homogeneous ids."
  },
  {
   "property": "C52",
   "status": "proved",
   "theorems": [
    "C52_update_is_pointwise",
    "C52_get_values_in_order"
   ],
   "note": ""
  },
  {
   "property": "C53",
   "status": "partial",
   "theorems": [
    "C53_repeated_ids_refuted"
   ],
   "note": "False: a series naming a member twice makes update raise ValueError and leaves the attribute with several values for one member (_refuted, for every such series)."
  },
  {
   "property": "C54",
   "status": "proved",
   "theorems": [
    "C54_add_accumulates",
    "C54_add_succeeds",
    "C54_unknown_raises",
    "C54_order_irrelevant",
    "C54_operation"
   ],
   "note": ""
  },
  {
   "property": "C55",
   "status": "proved",
   "theorems": [
    "C55_ids_distinct",
    "C55_duplicates_refused",
    "C55_generated_duplicates_refused"
   ],
   "note": ""
  },
  {
   "property": "C56",
   "status": "partial",
   "theorems": [
    "C56_size_refuted",
    "C56_size_at_creation",
    "C56_members_stay"
   ],
   "note": "False once Population.update has added members (_refuted); proved: exact at creation, never changes afterwards, members are never lost."
  },
  {
   "property": "C57",
   "status": "proved",
   "theorems": [
    "C57_update_stores_members",
    "C57_missing_attribute_refused"
   ],
   "note": ""
  },
  {
   "property": "C58",
   "status": "partial",
   "theorems": [
    "C58_name_reused_refuted"
   ],
   "note": "False: an existing name is silently taken over by a new, empty relationship (_refuted, for every population, name and seed)."
  },
  {
   "property": "C59",
   "status": "proved",
   "theorems": [
    "C59_lookup_rows"
   ],
   "note": ""
  },
  {
   "property": "C60",
   "status": "partial",
   "theorems": [
    "C60_selects_members_partial",
    "C60_bad_weights_refused",
    "C60_misaligned_refuted"
   ],
   "note": "Members only, always; positive weights when the attribute table lists the members in the order of the ids (_partial); after an update reorders the table the weights belong to other members (_misaligned_refuted). Negative or all-zero weights are refused."
  },
  {
   "property": "C61",
   "status": "proved",
   "theorems": [
    "C61_sequential_ids_unique",
    "C61_sequential_total",
    "C61_negative_size_refuted"
   ],
   "note": "For sizes >= 0, over the whole life of the generator; with a negative size ids are reused (_refuted)."
  },
  {
   "property": "C62",
   "status": "partial",
   "theorems": [
    "C62_msisdn_unique",
    "C62_msisdn_exhausted",
    "C62_msisdn_never_all_nines",
    "C62_repeated_prefix_refuted"
   ],
   "note": "Uniqueness for distinct prefixes; a repeated prefix breaks it (_repeated_prefix_refuted). The number made of nines only is never given."
  },
  {
   "property": "C63",
   "status": "proved",
   "theorems": [
    "C63_sequence_continues",
    "C63_saving_succeeds"
   ],
   "note": "For every state of the generator and every disk."
  },
  {
   "property": "C64",
   "status": "partial",
   "theorems": [
    "C64_refuted",
    "C64_restarts_from_1234"
   ],
   "note": "False of the code (C64_refuted): load_from ignores the restored state. C64_restarts_from_1234 says what it does, for every state."
  },
  {
   "property": "C65",
   "status": "proved",
   "theorems": [
    "C65_trigger_certain"
   ],
   "note": ""
  },
  {
   "property": "C66",
   "status": "proved",
   "theorems": [
    "C66_quantities_partition"
   ],
   "note": ""
  },
  {
   "property": "C67",
   "status": "proved",
   "theorems": [
    "C67_in_range",
    "C67_identity_inside",
    "C67_same_object_inside",
    "C67_value_or_bound",
    "C67_monotone",
    "C67_idempotent",
    "C67_crossed_bounds",
    "C67_numbers_are_ordered"
   ],
   "note": "For the numbers (rationals and reals) and for any total order of python's comparison."
  },
  {
   "property": "C68",
   "status": "proved",
   "theorems": [
    "C68_logistic_range",
    "C68_logistic_increasing",
    "C68_logistic_decreasing",
    "C68_logistic_midpoint"
   ],
   "note": "Over the reals (axioms of Coq.Reals); the float rounding of numpy is not modelled."
  },
  {
   "property": "C69",
   "status": "proved",
   "theorems": [
    "C69_deletes_tree",
    "C69_ensure_folder"
   ],
   "note": "For every tree and path."
  },
  {
   "property": "C70",
   "status": "partial",
   "theorems": [
    "C70_round_trip_partial",
    "C70_empty_refuted",
    "C70_ids_refuted"
   ],
   "note": "Holds exactly for the relationships with faithful text (clean_rel); false for an empty relationship, ids made of digits, ids such as NA. The position in the random stream is not saved."
  },
  {
   "property": "C71",
   "status": "partial",
   "theorems": [
    "C71_round_trip_partial",
    "C71_every_circus",
    "C71_ids_refuted"
   ],
   "note": "For populations whose ids and values have a faithful text (clean_population); C71_ids_refuted otherwise."
  },
  {
   "property": "C72",
   "status": "partial",
   "theorems": [
    "C72_round_trip_partial",
    "C72_saving_succeeds",
    "C72_every_circus",
    "C72_reload_refuted"
   ],
   "note": "For circuses with a population, whose values have a faithful text and generator ids have no dot (clean_circus); C72_reload_refuted otherwise. Any order of os.listdir."
  },
  {
   "property": "C73",
   "status": "proved",
   "theorems": [
    "C73_refuses",
    "C73_nothing_remains",
    "C73_nothing_else_changes",
    "C73_not_atomic"
   ],
   "note": "Also: overwriting is not atomic (C73_not_atomic)."
  },
  {
   "property": "C74",
   "status": "partial",
   "theorems": [
    "C74_reproducible_refuted",
    "C74_reproducible_with_from_ids"
   ],
   "note": "False for select_one() without from_ids (_refuted: set iteration order); proved for explicit from_ids."
  },
  {
   "property": "C75",
   "status": "proved",
   "theorems": [
    "C75_merge_pointwise",
    "C75_merge_conflict",
    "C75_merge_disjoint",
    "C75_none_neutral"
   ],
   "note": ""
  },
  {
   "property": "C76",
   "status": "partial",
   "theorems": [
    "C76_bipartite_ends",
    "C76_bipartite_positions",
    "C76_bipartite_degenerate",
    "C76_bipartite_no_edge_refuted"
   ],
   "note": "Complete except that a graph without edge makes the call raise (_refuted)."
  },
  {
   "property": "C77",
   "status": "proved",
   "theorems": [
    "C77_random_assign",
    "C77_random_assign_total"
   ],
   "note": ""
  },
  {
   "property": "C78",
   "status": "proved",
   "theorems": [
    "C78_er_social_network",
    "C78_graph_is_simple",
    "C78_in_every_circus",
    "C78_empty_population"
   ],
   "note": "For every outcome of the raw draws, termination of networkx's loop included; an empty population raises ZeroDivisionError (_empty_population)."
  },
  {
   "property": "C79",
   "status": "proved",
   "theorems": [
    "C79_stock_items",
    "C79_one_owner",
    "C79_bulk_stock"
   ],
   "note": "Exact multiset of items; one owner per item when the generated items are distinct."
  },
  {
   "property": "C80",
   "status": "proved",
   "theorems": [
    "C80_random_proportions"
   ],
   "note": ""
  },
  {
   "property": "C81",
   "status": "proved",
   "theorems": [
    "C81_generate_size"
   ],
   "note": ""
  },
  {
   "property": "C82",
   "status": "proved",
   "theorems": [
    "C82_pareto_lower_bound",
    "C82_force_int_refuted"
   ],
   "note": "Stated without force_int; with force_int and a non-integer xmin it is false (_refuted)."
  },
  {
   "property": "C83",
   "status": "proved",
   "theorems": [
    "C83_seed_range"
   ],
   "note": ""
  },
  {
   "property": "C84",
   "status": "proved",
   "theorems": [
    "C84_map_images"
   ],
   "note": ""
  },
  {
   "property": "C85",
   "status": "proved",
   "theorems": [
    "C85_generated_column",
    "C85_timestamps",
    "C85_neighbour_counts"
   ],
   "note": ""
  },
  {
   "property": "C86",
   "status": "proved",
   "theorems": [
    "C86_relationships_reachable",
    "C86_select_one",
    "C86_select_many",
    "C86_select_all"
   ],
   "note": ""
  },
  {
   "property": "C87",
   "status": "proved",
   "theorems": [
    "C87_add_stores_rows",
    "C87_add_grouped_stores_items"
   ],
   "note": ""
  },
  {
   "property": "C88",
   "status": "proved",
   "theorems": [
    "C88_frame_shows_all",
    "C88_frame_available"
   ],
   "note": ""
  },
  {
   "property": "C89",
   "status": "proved",
   "theorems": [
    "C89_from_values",
    "C89_from_scalar",
    "C89_from_generator",
    "C89_from_relationship",
    "C89_isolated_member_refuted"
   ],
   "note": "Complete; a member without any relation gets no value with init_relationship, and reading it raises KeyError (_isolated_member_refuted)."
  },
  {
   "property": "C90",
   "status": "partial",
   "theorems": [
    "C90_explicit_seed",
    "C90_default_seed",
    "C90_seed_zero_refuted"
   ],
   "note": "For seeds other than 0; seed=0 is taken as no seed (_seed_zero_refuted)."
  },
  {
   "property": "C91",
   "status": "proved",
   "theorems": [
    "C91_generators_keep_definition"
   ],
   "note": ""
  },
  {
   "property": "C92",
   "status": "proved",
   "theorems": [
    "C92_bounded_sigmoid",
    "C92_beta_is_cdf",
    "C92_beta_density",
    "C92_symmetric",
    "C92_shape_one_is_linear"
   ],
   "note": "Proved for every CDF of a law on [0,1] and for the regularised incomplete beta function with integer shapes."
  },
  {
   "property": "C93",
   "status": "partial",
   "theorems": [
    "C93_copy_if",
    "C93_documented_order_refuted"
   ],
   "note": "Proved for the argument order of the code (condition first); with the documented order it raises (_documented_order_refuted)."
  },
  {
   "property": "C94",
   "status": "proved",
   "theorems": [
    "C94_apply_series",
    "C94_apply_frame"
   ],
   "note": "Row-wise functions and arbitrary functions that keep the length."
  },
  {
   "property": "C95",
   "status": "proved",
   "theorems": [
    "C95_attribute_round_trip"
   ],
   "note": "If and only if."
  },
  {
   "property": "C96",
   "status": "proved",
   "theorems": [
    "C96_profile_round_trip"
   ],
   "note": "For dates, durations and weights the text format reads back."
  },
  {
   "property": "C97",
   "status": "partial",
   "theorems": [
    "C97_empirical_round_trip",
    "C97_excess_refused",
    "C97_check_refuted"
   ],
   "note": "The round trip is proved; the check on saving is one-sided (C97_check_refuted)."
  },
  {
   "property": "C98",
   "status": "proved",
   "theorems": [
    "C98_selection_by_weight",
    "C98_selection_frequency",
    "C98_discard_empty"
   ],
   "note": "For nonnegative weights; the frequency is exact up to one of the 2^53 numbers per entry. Built on numpy's choice as modelled in Rng.v."
  },
  {
   "property": "C99",
   "status": "proved",
   "theorems": [
    "C99_trigger_draws",
    "C99_trigger_frequency"
   ],
   "note": "Frequency exact up to one of the 2^53 numbers."
  },
  {
   "property": "C100",
   "status": "proved",
   "theorems": [
    "C100_back_to_default_draws"
   ],
   "note": "For chains whose operations do not change the states of the story; the rows dropped by the chain are not concerned (finding on C10)."
  },
  {
   "property": "C101",
   "status": "proved",
   "theorems": [
    "C101_weighted_choice",
    "C101_uniform"
   ],
   "note": "choice with probabilities, and uniform; other numpy methods are opaque draws."
  },
  {
   "property": "C102",
   "status": "proved",
   "theorems": [
    "C102_generator_batches",
    "C102_dependent_batches",
    "C102_selection_batches"
   ],
   "note": "streaming lists the generators concerned; fixed lists, msisdn and batch transformations are not streams. select_one with pop or one_to_one is excluded."
  },
  {
   "property": "C103",
   "status": "proved",
   "theorems": [
    "C103_timer_draws",
    "C103_mean_timer"
   ],
   "note": "Activities in (0,2]; above 2 the code draws from a beta distribution, which is opaque."
  },
  {
   "property": "C104",
   "status": "proved",
   "theorems": [
    "C104_operation",
    "C104_story",
    "C104_call"
   ],
   "note": "Object granularity: the footprint of an operation is computed from its constructor arguments (SpecLocal.changes). Creation calls leave alone all existing objects they are not given."
  },
  {
   "property": "C105",
   "status": "proved",
   "theorems": [
    "C105_same_objects_same_result",
    "C105_independent_stories_commute",
    "C105_forcing_does_not_commute"
   ],
   "note": "Equality of whole circuses after both orders."
  },
  {
   "property": "C106",
   "status": "proved",
   "theorems": [
    "C106_others_do_not_disturb",
    "C106_others_leave_the_objects"
   ],
   "note": "Histories of executions, clock steps, force/reset/transit/tick calls, raising ones included."
  },
  {
   "property": "C107",
   "status": "proved",
   "theorems": [
    "C107_force",
    "C107_force_unknown",
    "C107_transit",
    "C107_reset"
   ],
   "note": "States given by a column must be texts (anything else is outside the model). reset_timers without a field needs distinct index labels, which story data have."
  },
  {
   "property": "C108",
   "status": "proved",
   "theorems": [
    "C108_attribute_update",
    "C108_attribute_update_runs",
    "C108_population_update",
    "C108_creation_leaves_relations"
   ],
   "note": "attribute.ops.update needs distinct ids (C53: repeated ones raise)."
  },
  {
   "property": "C109",
   "status": "proved",
   "theorems": [
    "C109_select_one",
    "C109_select_many",
    "C109_generator",
    "C109_timer",
    "C109_reset",
    "C109_assignment"
   ],
   "note": "Generators with their own numpy source (numpy methods, Pareto). The msisdn generator builds a new source at each call and is covered by C62."
  },
  {
   "property": "C110",
   "status": "proved",
   "theorems": [
    "C110_bounded_wait",
    "C110_from_the_start"
   ],
   "note": "For cyclic timers registered with the clock and not rescheduled; C110_from_the_start gives the hypotheses for a new story."
  },
  {
   "property": "C111",
   "status": "proved",
   "theorems": [
    "C111_structure",
    "C111_runs",
    "C111_runs_on_grid",
    "C111_made_of_calls"
   ],
   "note": "Faker's outputs, numpy's beta and pareto are arbitrary functions of the call number or raw draw. Exact condition for success: C111_runs."
  },
  {
   "property": "C112",
   "status": "partial",
   "theorems": [
    "C112_default_refuted",
    "C112_others_refuted"
   ],
   "note": "Refuted: the three calls raise TypeError in every circus (missing argument circus)."
  },
  {
   "property": "C113",
   "status": "proved",
   "theorems": [
    "C113_log_is_health"
   ],
   "note": "After any sequence of happenings from the circus with the geography, raising ones included."
  },
  {
   "property": "C114",
   "status": "proved",
   "theorems": [
    "C114_daily_break_down",
    "C114_nobody"
   ],
   "note": "The code's comment says that most cells never break down. 24 hours a multiple of the clock step; pareto samples not negative."
  },
  {
   "property": "C115",
   "status": "proved",
   "theorems": [
    "C115_repaired",
    "C115_repair_cause"
   ],
   "note": "Same hypotheses as C114."
  },
  {
   "property": "C116",
   "status": "proved",
   "theorems": [
    "C116_never_raises"
   ],
   "note": "Histories of the two stories and the clock."
  },
  {
   "property": "C117",
   "status": "partial",
   "theorems": [
    "C117_distribution",
    "C117_timers",
    "C117_timer_bin",
    "C117_cycle_length",
    "C117_daily_cycle_refuted",
    "C117_all_weights_used_refuted",
    "C117_refines"
   ],
   "note": "Exact distribution for every clock step (C117_distribution, C117_timers), positive weight of the bin of each timer other than 0 and whole cycles. Refuted: if the clock step does not divide the cycle, the cycle is shortened by the remainder and drifts; periods without a date of the grid are not used. Off the grid with equal steps, the weights are those of less than one step later."
  },
  {
   "property": "C118",
   "status": "partial",
   "theorems": [
    "C118_outcome",
    "C118_terminates_refuted",
    "C118_long_step_refuted"
   ],
   "note": "C118_outcome gives all outcomes exactly. Refuted: endless loop when the clock starts after the last bin of the cycle, IndexError when the clock step exceeds the cycle. Not covered: a step of several days, equal to the profile's, off the grid (pandas may infer another frequency)."
  },
  {
   "property": "C119",
   "status": "partial",
   "theorems": [
    "C119_weights_ignored",
    "C119_busy_members",
    "C119_follows_profile_refuted"
   ],
   "note": "Refuted: a profile starting off the clock's grid, with another step, has NaN in its cumulated weights; C119_weights_ignored gives the timers that follow instead. C117 is the positive part."
  },
  {
   "property": "C120",
   "status": "proved",
   "theorems": [
    "C120_items_conserved",
    "C120_items_conserved_by_run",
    "C120_nothing_from_nowhere"
   ],
   "note": "Conservation for every history without exception and for Circus.run; with exceptions, nothing appears from nowhere."
  },
  {
   "property": "C121",
   "status": "partial",
   "theorems": [
    "C121_held_once",
    "C121_held_once_partial",
    "C121_held_once_refuted",
    "C121_bulk_purchase_refuted"
   ],
   "note": "Proved when sizes asked from the generator are fixed or not negative; refuted for negative sizes taken from data (the counter of the generator goes back) and for bulk purchases with a repeated seller (finding 42)."
  },
  {
   "property": "C122",
   "status": "partial",
   "theorems": [
    "C122_logs_reloaded",
    "C122_refuted"
   ],
   "note": "Proved for log ids whose loggers list the same distinct non-empty columns: columns, number of rows and, for each column, the exact condition under which its values come back. Refuted without that condition: ids made of digits lose their leading zeros (finding 43). Rows of unequal length and repeated column names are not modelled."
  },
  {
   "property": "C123",
   "status": "proved",
   "theorems": [
    "C123_params_stored",
    "C123_succeeds",
    "C123_forgotten"
   ],
   "note": "Parameters are known by their JSON text."
  },
  {
   "property": "C124",
   "status": "partial",
   "theorems": [
    "C124_timer_stored",
    "C124_empirical_stored",
    "C124_unloadable_timer",
    "C124_unloadable_empirical",
    "C124_refuted"
   ],
   "note": "Storing and reading back, other namespaces and other objects: proved. Refuted: a circus saved in the same namespace can never be loaded again (C124_unloadable_timer, C124_unloadable_empirical)."
  },
  {
   "property": "C125",
   "status": "proved",
   "theorems": [
    "C125_created",
    "C125_removed",
    "C125_save_refused"
   ],
   "note": ""
  },
  {
   "property": "C126",
   "status": "partial",
   "theorems": [
    "C126_columns",
    "C126_as_described",
    "C126_own_list",
    "C126_refuted"
   ],
   "note": "Exact columns of every logger for every sharing of lists (lists given both as columns and as exploded columns excepted). Refuted when a list is given to several loggers one of which has exploded columns (finding 44)."
  },
  {
   "property": "C127",
   "status": "proved",
   "theorems": [
    "C127_stock_follows_logs",
    "C127_stock_follows_files",
    "C127_never_oversold",
    "C127_sold_once",
    "C127_without_one_to_one_refuted"
   ],
   "note": "Stories which do one trade each and log it after; items and deliveries are not missing values. C127_without_one_to_one_refuted shows what one_to_one is needed for."
  },
  {
   "property": "C128",
   "status": "proved",
   "theorems": [
    "C128_account_follows_logs",
    "C128_account_follows_files"
   ],
   "note": "Stories which make one posting each and log it after."
  },
  {
   "property": "C129",
   "status": "partial",
   "theorems": [
    "C129_description_tells",
    "C129_description_total",
    "C129_never_printed",
    "C129_print_refuted",
    "C129_printed_without_populations"
   ],
   "note": "description is proved to tell the content. Printing is refuted: str raises TypeError for every circus that has a population (finding 45); without populations it works exactly when json accepts the parameters of the numpy generators. JSON text is known as a tree."
  },
  {
   "property": "C130",
   "status": "proved",
   "theorems": [
    "C130_records_are_true",
    "C130_files_are_true",
    "C130_hello_world"
   ],
   "note": "Circuses satisfying tidy: every story logging under the id gives new names to the columns it adds and uses existing ones. Items of relationships and values of attributes which stories change are not covered here (C127, C128 are about those)."
  },
  {
   "property": "C131",
   "status": "proved",
   "theorems": [
    "C131_records_in_order",
    "C131_files_in_order",
    "C131_random_order_refuted"
   ],
   "note": "C131_random_order_refuted shows that within a step random timestamps need not be in order."
  },
  {
   "property": "C132",
   "status": "proved",
   "theorems": [
    "C132_one_record_per_act",
    "C132_one_line_per_act"
   ],
   "note": ""
  },
  {
   "property": "C133",
   "status": "proved",
   "theorems": [
    "C133_generators_give_their_values"
   ],
   "note": "The laws of numpy generators other than choice and uniform are functions of a draw."
  },
  {
   "property": "C134",
   "status": "proved",
   "theorems": [
    "C134_never_raises",
    "C134_run_completes",
    "C134_made_with_the_api",
    "C134_hello_world",
    "C134_friendless_refuted"
   ],
   "note": "Well-formedness (SpecSafe.v) is sufficient, not necessary; the conditions on rows are about rows of which all that the operations before tell is true (C130). It is relative to kinds: which values each member may have in each attribute, an invariant that updates must keep and lookups may rely on. Chains inside stories are covered by C135; population updates, selection with a weight column and sources of fixed values are outside it. C134_friendless_refuted: without a friend for everybody the example raises KeyError (finding 46)."
  },
  {
   "property": "C135",
   "status": "proved",
   "theorems": [
    "C135_same_executions",
    "C135_same_happenings",
    "C135_same_logs",
    "C135_same_run",
    "C135_without_chains",
    "C135_never_raises",
    "C135_histories_never_raise"
   ],
   "note": ""
  },
  {
   "property": "C136",
   "status": "proved",
   "theorems": [
    "C136_records_true_when_logged",
    "C136_lines_true_when_logged",
    "C136_mobility"
   ],
   "note": "For stories that name the columns they add anew (tidy)."
  },
  {
   "property": "C137",
   "status": "proved",
   "theorems": [
    "C137_journal_tells_value",
    "C137_journal_has_no_gaps",
    "C137_files_have_no_gaps",
    "C137_mobility"
   ],
   "note": "One log per attribute; updates by AttributeOps.update."
  },
  {
   "property": "C138",
   "status": "proved",
   "theorems": [
    "C138_never_raises",
    "C138_run_completes",
    "C138_cellless_refuted",
    "C138_shared_sim_refuted"
   ],
   "note": "Under the conditions cdr_ready on the data; two of them are shown to be needed (refuted variants). The scenario's own set-up does not ensure that every subscriber has a cell (finding 47)."
  },
  {
   "property": "C139",
   "status": "proved",
   "theorems": [
    "C139_records_true",
    "C139_lines_true"
   ],
   "note": "Under the conditions cdr_ready of C138 (subscribers have no missing id)."
  },
  {
   "property": "C140",
   "status": "proved",
   "theorems": [
    "C140_balance_from_the_records",
    "C140_balance_from_the_files"
   ],
   "note": "Under the conditions cdr_ready of C138 and numbers_differ."
  },
  {
   "property": "C141",
   "status": "proved",
   "theorems": [
    "C141_records_true",
    "C141_lines_true"
   ],
   "note": "For circuses with the six stories whose initial SIMs are not missing values (snd_circus)."
  },
  {
   "property": "C142",
   "status": "proved",
   "theorems": [
    "C142_stocks_from_the_records",
    "C142_stocks_from_the_files",
    "C142_held_once_refuted"
   ],
   "note": "Numbers of SIMs, for dealers; the SIMs themselves, for agents. That no SIM is held twice is false in this scenario (C142_held_once_refuted, finding 42)."
  },
  {
   "property": "C143",
   "status": "partial",
   "theorems": [
    "C143_inactive_stay_out",
    "C143_last_purchase",
    "C143_no_purchase_on_holidays_refuted",
    "C143_buys_again_refuted"
   ],
   "note": "The intended claims (no purchase on holidays; purchases resume afterwards) are false: C143_no_purchase_on_holidays_refuted, C143_buys_again_refuted (finding 48). What does hold is proved."
  },
  {
   "property": "C144",
   "status": "proved",
   "theorems": [
    "C144_parameters",
    "C144_new_story",
    "C144_found",
    "C144_not_found",
    "C144_set_operations",
    "C144_append_operations",
    "C144_seeds"
   ],
   "note": "For populations without repeated ids; activities and probabilities are numbers."
  },
  {
   "property": "C145",
   "status": "proved",
   "theorems": [
    "C145_never_raises",
    "C145_run_completes",
    "C145_stranger_refuted"
   ],
   "note": "For circuses that satisfy snd_circus and snd_ready; the code that draws the random graphs of the scenario is not modelled."
  },
  {
   "property": "C146",
   "status": "proved",
   "theorems": [
    "C146_week_days",
    "C146_work_hours",
    "C146_drawn_at_work",
    "C146_daily",
    "C146_nights",
    "C146_evenings"
   ],
   "note": "Dates are nanoseconds since 1970 without time zone. The exceptions of the last sentence are the findings of C31."
  },
  {
   "property": "C147",
   "status": "proved",
   "theorems": [
    "C147_counter_from_the_records",
    "C147_counter_from_the_files",
    "C147_never_more_than_bought",
    "C147_restock_settles",
    "C147_restocks_after_a_sale"
   ],
   "note": "The counter theorems need snd_ready (C145): a counter for each distributor and whole numbers. The stock of a distributor does not follow from the logs when two dealers buy from it in one step: see C47 and finding 42."
  },
  {
   "property": "C148",
   "status": "proved",
   "theorems": [
    "C148_stock_bounds",
    "C148_stock_of_one_client",
    "C148_stock_of_one_client_from_the_files",
    "C148_stock_and_orders",
    "C148_two_clients_refuted"
   ],
   "note": "Equality holds with at most one client per distributor; C148_two_clients_refuted shows a run with two clients in which dealers bought more SIMs than left the stock (finding 42)."
  },
  {
   "property": "C149",
   "status": "proved",
   "theorems": [
    "C149_records_true",
    "C149_lines_true",
    "C149_places_from_the_records",
    "C149_places_from_the_files",
    "C149_no_gaps",
    "C149_files_have_no_gaps"
   ],
   "note": ""
  },
  {
   "property": "C150",
   "status": "proved",
   "theorems": [
    "C150_archive_keeps_the_log",
    "C150_reviews_from_the_records",
    "C150_reviews_from_the_files",
    "C150_no_review_is_lost"
   ],
   "note": ""
  },
  {
   "property": "C151",
   "status": "proved",
   "theorems": [
    "C151_records_are_numbered",
    "C151_lines_are_numbered"
   ],
   "note": ""
  },
  {
   "property": "C152",
   "status": "proved",
   "theorems": [
    "C152_created_so",
    "C152_acts_iff_told",
    "C152_topups_after_spending",
    "C152_logged_topups",
    "C152_no_more_topups",
    "C152_no_more_topups_in_the_files",
    "C152_restocks_iff_sold"
   ],
   "note": ""
  },
  {
   "property": "C153",
   "status": "proved",
   "theorems": [
    "C153_subscribers_and_sims",
    "C153_succeeds",
    "C153_too_few_numbers"
   ],
   "note": "Without subscribers the construction is not modelled (Unmodelled is raised there)."
  },
  {
   "property": "C154",
   "status": "proved",
   "theorems": [
    "C154_constructed",
    "C154_succeeds",
    "C154_never_raises",
    "C154_run_completes"
   ],
   "note": "Weights drawn from numpy's exponential law are assumed positive, those of Lomax's law nonnegative; without subscribers the construction is not modelled (Unmodelled is raised there)."
  },
  {
   "property": "C155",
   "status": "proved",
   "theorems": [
    "C155_accounts",
    "C155_no_more_topups",
    "C155_lines_true",
    "C155_places",
    "C155_simulations_succeed"
   ],
   "note": "Weights drawn from numpy's exponential law are assumed positive, those of Lomax's law nonnegative."
  },
  {
   "property": "C156",
   "status": "proved",
   "theorems": [
    "C156_constructed",
    "C156_succeeds",
    "C156_never_raises",
    "C156_run_completes",
    "C156_broke_dealer"
   ],
   "note": "Weights drawn from numpy's exponential law are assumed positive, numbers of pareto's law nonnegative. Empty populations and empty stocks are not modelled (the model raises Unmodelled)."
  },
  {
   "property": "C157",
   "status": "proved",
   "theorems": [
    "C157_sims_sold",
    "C157_to_restock",
    "C157_reviews",
    "C157_lines_true",
    "C157_holidays",
    "C157_simulations_succeed"
   ],
   "note": "Assumptions on the random numbers as in C156."
  },
  {
   "property": "C158",
   "status": "proved",
   "theorems": [
    "C158_last_purchase",
    "C158_in_the_files"
   ],
   "note": "The histories before call only existing stories, members and states (as those of Circus.run do); afterwards nobody calls force_act_next, reset_timers or timer_tick of the purchases story by hand."
  }
 ]
}