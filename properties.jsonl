{"id": "C01", "title": "Exactly the members whose countdown is 0 act", "statement": "When a story executes, its operation chain receives one row per member whose remaining counter is 0 at that instant, in population order, indexed by and containing the member id; if there is none the chain is not run and no log is produced.", "quantifier": "every story state, every population size, every chain", "why_tests_cant": "The timer table is arbitrary; tests fix 10 members with 2 timer values.", "anchors": ["trumania/core/story.py:Story.execute", "trumania/core/story.py:Story.active_inactive_ids", "trumania/core/story.py:Story.init_story_data"]}
{"id": "C02", "title": "Countdown fires exactly on time", "statement": "A member whose counter is n>=0 and that nobody forces or resets acts at the (n+1)-th next execution of the story and at none of the n executions before it, whatever the operations of this and all other stories do.", "quantifier": "every n, every history of executions of all stories of a circus whose operations do not force/reset that story", "why_tests_cant": "Quantifies over unbounded histories and all interleaved stories.", "anchors": ["trumania/core/story.py:Story.execute", "trumania/core/story.py:Story.timer_tick"]}
{"id": "C03", "title": "Inactive members stay inactive", "statement": "A member whose counter is negative (or NaN) never acts, for any number of executions, until somebody resets or forces it.", "quantifier": "every number of executions, every chain not resetting/forcing it", "why_tests_cant": "Unbounded number of steps.", "anchors": ["trumania/core/story.py:Story.timer_tick", "trumania/core/story.py:Story.active_inactive_ids"]}
{"id": "C04", "title": "force_act_next wins over resets and ticks", "statement": "After force_act_next(ids), every forced member acts at the story's next execution, whatever reset_timers, timer_tick, transit_to_state and further force_act_next calls happen before that execution.", "quantifier": "every sequence of story API calls between the force and the next execution", "why_tests_cant": "Interleavings of force/reset/tick are unbounded; the unit test has one.", "anchors": ["trumania/core/story.py:Story.force_act_next", "trumania/core/story.py:Story.reset_timers", "trumania/core/story.py:Story.timer_tick"]}
{"id": "C05", "title": "A member can force itself to act again", "statement": "A member that is forced by the operations executed by its own story at one step is active again at the very next execution, with and without auto-reset.", "quantifier": "every story state, every chain", "why_tests_cant": "Depends on the order flag-clearing / chain / reset / tick for every chain.", "anchors": ["trumania/core/story.py:Story.execute"]}
{"id": "C06", "title": "Without auto-reset a member acts at most once", "statement": "For a story created with auto_reset_timer=False whose members are never forced or reset after time t, each member acts at most once after t, then its counter stays negative.", "quantifier": "every history of executions", "why_tests_cant": "Unbounded histories.", "anchors": ["trumania/core/story.py:Story.execute", "trumania/core/story.py:Story.timer_tick"]}
{"id": "C07", "title": "Zero activity means never scheduled", "statement": "reset_timers gives counter -1 to every addressed, non-forced member whose activity in its current state is 0, and the timer generator's value to every other addressed member; nobody else's counter and nobody's state changes.", "quantifier": "every timer generator, every activity table, every id subset, every forced set", "why_tests_cant": "All generators and states.", "anchors": ["trumania/core/story.py:Story.reset_timers", "trumania/core/story.py:Story.get_param"]}
{"id": "C08", "title": "Constant timers give a constant period", "statement": "With a timer generator that always yields c>=0, non-zero activity and auto-reset, a fresh member acts at executions c, 2c+1, 3c+2, ... (0-based) and at no other execution.", "quantifier": "every c, every number of executions", "why_tests_cant": "Unbounded horizon.", "anchors": ["trumania/core/story.py:Story.execute", "trumania/core/story.py:Story.__init__"]}
{"id": "C09", "title": "State transitions are local and by current state", "statement": "transit_to_state sets the state of exactly the addressed members; get_param returns, for each requested member, the parameter declared for its current state.", "quantifier": "every table of states, every id list", "why_tests_cant": "All tables.", "anchors": ["trumania/core/story.py:Story.transit_to_state", "trumania/core/story.py:Story.get_param"]}
{"id": "C10", "title": "Back-to-default obeys its probability", "statement": "After an execution, a member that ran in a non-default state with back_to_default_probability 1 is in the default state; with probability 0 it keeps its state; members that did not run keep their state.", "quantifier": "every random draw, every mix of probabilities", "why_tests_cant": "All outcomes of the random judge.", "anchors": ["trumania/core/story.py:Story._MaybeBackToDefault"]}
{"id": "C11", "title": "A reset member eventually acts", "statement": "A member with positive activity whose timer is reset by an operation acts at some later execution (its counter is then >= 0).", "quantifier": "every reset by every story's operations", "why_tests_cant": "The order tick/reset inside one execution matters only for resets from the story's own chain.", "anchors": ["trumania/core/story.py:Story.execute", "trumania/core/story.py:StoryOps.ResetTimers"]}
{"id": "C12", "title": "The set of schedulable members of a story is fixed", "statement": "No sequence of executions, forces, resets or transitions changes which member ids a story knows; calls naming unknown ids raise and leave all counters and states unchanged.", "quantifier": "every history", "why_tests_cant": "All histories.", "anchors": ["trumania/core/story.py:Story"]}
{"id": "C13", "title": "Chain is sequential composition", "statement": "Running a chain of ops1 followed by ops2 is running ops1, then ops2 on its output, with for each log id the rows of the first followed by the rows of the second.", "quantifier": "all operation lists, all story data, all logs", "why_tests_cant": "All splits of all chains.", "anchors": ["trumania/core/operations.py:Chain.__call__", "trumania/core/util_functions.py:merge_dicts", "trumania/core/util_functions.py:df_concat"]}
{"id": "C14", "title": "Story data keeps one row per active member", "statement": "After any chain of library operations the index of the story data has no duplicate and contains only ids of members active at this step, in their original relative order unless a select_all regroups rows naming the same member; no operation ever adds a row.", "quantifier": "all chains, all data, all random draws", "why_tests_cant": "All chains of all operations.", "anchors": ["trumania/core/operations.py:AddColumns.transform", "trumania/core/relationship.py:RelationshipOps", "trumania/core/population.py:PopulationOps"]}
{"id": "C15", "title": "Side-effect operations do not touch the story data", "statement": "Attribute/relationship/population/story updates and field loggers return the story data unchanged; only loggers produce logs.", "quantifier": "all data, all circus states", "why_tests_cant": "All states.", "anchors": ["trumania/core/operations.py:SideEffectOnly", "trumania/core/operations.py:FieldLogger"]}
{"id": "C16", "title": "Column-adding operations only add columns", "statement": "A column-adding operation with a fresh target name keeps every existing column and value of every surviving row and adds exactly the named columns; with left join no row disappears.", "quantifier": "all data frames", "why_tests_cant": "All frames; name clashes are silently suffixed by pandas.", "anchors": ["trumania/core/operations.py:AddColumns.transform"]}
{"id": "C17", "title": "DropRow keeps exactly the rows whose condition is false", "statement": "DropRow(condition_field) returns exactly the rows whose field is False, in order (as its tests say; its docstring says the opposite).", "quantifier": "all frames", "why_tests_cant": "All frames.", "anchors": ["trumania/core/operations.py:DropRow"]}
{"id": "C18", "title": "FieldLogger logs exactly the requested columns", "statement": "Without exploded columns the emitted log has exactly the requested columns (all of them if none requested) and one row per story-data row, same values; with exploded columns one row per list element with the other columns repeated.", "quantifier": "all frames, all column lists", "why_tests_cant": "All frames, including empty ones and rows with empty lists.", "anchors": ["trumania/core/operations.py:FieldLogger.emit_logs"]}
{"id": "C19", "title": "run lasts ceil(duration/step) steps", "statement": "run executes each story exactly n_iterations(duration) times, in creation order within each step, where n_iterations is the least n with n*step >= duration; afterwards the clock shows start + n*step.", "quantifier": "all durations, steps, story lists", "why_tests_cant": "All durations.", "anchors": ["trumania/core/circus.py:Circus.run", "trumania/core/clock.py:Clock.n_iterations", "trumania/core/clock.py:Clock.increment"]}
{"id": "C20", "title": "Log files hold exactly the emitted rows in order", "statement": "After run, the file of each log id holds one header line then every emitted row for that id, ordered by step, then story order, then emission order; no file exists for an id that never emitted a row, and nothing else is in the folder.", "quantifier": "all circuses, all durations", "why_tests_cant": "All schedules.", "anchors": ["trumania/core/circus.py:Circus.save_logs", "trumania/core/circus.py:Circus.run"]}
{"id": "C21", "title": "Log files are append-only at every crash point", "statement": "If the run is interrupted between two writes, each log file is a prefix of what it would have been at the end.", "quantifier": "every crash point of every run", "why_tests_cant": "All crash points.", "anchors": ["trumania/core/circus.py:Circus.save_logs", "trumania/core/circus.py:Circus.run"]}
{"id": "C22", "title": "run refuses to overwrite", "statement": "If the log folder exists and delete_existing_logs is False, run raises and neither the file system nor the circus changes; if True, nothing of the old folder remains after the run starts.", "quantifier": "all file systems", "why_tests_cant": "All file systems.", "anchors": ["trumania/core/circus.py:Circus.run", "trumania/core/util_functions.py:ensure_non_existing_dir"]}
{"id": "C23", "title": "Rows of a log file are aligned with its header", "statement": "Every row in a log file has its cells in the order of the file's header.", "quantifier": "all pairs of loggers sharing a log id", "why_tests_cant": "Needs loggers with different column lists.", "anchors": ["trumania/core/circus.py:Circus.save_logs"]}
{"id": "C24", "title": "Names are unique", "statement": "create_population, create_story and attach_generator refuse an existing name and leave the circus unchanged.", "quantifier": "all circuses", "why_tests_cant": "All.", "anchors": ["trumania/core/circus.py:Circus.create_population", "trumania/core/circus.py:Circus.create_story", "trumania/core/circus.py:Circus.attach_generator"]}
{"id": "C25", "title": "Log files do not depend on dictionary iteration order", "statement": "The content of every log file after a step is the same for every iteration order of the logs dictionary.", "quantifier": "every permutation of the logs dictionary", "why_tests_cant": "Set iteration order depends on the process's hash seed.", "anchors": ["trumania/core/circus.py:Circus.run", "trumania/core/util_functions.py:merge_2_dicts"]}
{"id": "C26", "title": "Timestamps stay in the current step", "statement": "Every random timestamp is in [current_date, current_date + step) at whole seconds, non-random ones are current_date; one per row.", "quantifier": "every draw, every clock", "why_tests_cant": "All draws.", "anchors": ["trumania/core/clock.py:Clock.get_timestamp"]}
{"id": "C27", "title": "The clock notifies each listener once per tick", "statement": "After k increments the clock shows start + k*step and each registered timer generator was advanced exactly k times, in registration order.", "quantifier": "all k, all listeners", "why_tests_cant": "All k.", "anchors": ["trumania/core/clock.py:Clock.increment", "trumania/core/clock.py:Clock.register_increment_listener"]}
{"id": "C28", "title": "Cyclic profile is always the profile rotated to now", "statement": "After k increments, the cumulative distribution of a timer generator is the one of its weight profile rotated by k positions; in particular it is non-decreasing, within [0,1], ends in 1 and has period n_time_bin.", "quantifier": "every weight profile, every k", "why_tests_cant": "Unbounded k; invariants of in-place rotation.", "anchors": ["trumania/core/clock.py:CyclicTimerGenerator.increment"]}
{"id": "C29", "title": "Timer generator starts aligned with the clock", "statement": "Construction terminates and leaves the generator's first bin at the clock's current date when dates and steps are aligned; otherwise construction must still terminate.", "quantifier": "all start dates, clock dates, steps", "why_tests_cant": "All date combinations; non-termination cannot be unit-tested.", "anchors": ["trumania/core/clock.py:CyclicTimerGenerator.__init__", "trumania/core/util_functions.py:latest_date_before"]}
{"id": "C30", "title": "Generated timers are valid waiting times", "statement": "For every activity > 0 the generated timer is an integer >= 0 (so the member will act), bounded by the number of cycles drawn; for activity <= 0 it is NaN; the result has the index and order of the observations.", "quantifier": "every activity series, every draw, every profile", "why_tests_cant": "All draws.", "anchors": ["trumania/core/clock.py:CyclicTimerGenerator.generate"]}
{"id": "C31", "title": "Members never act in a zero-weight period", "statement": "A story driven by a cyclic timer never executes a member in a bin whose weight is 0.", "quantifier": "all profiles, draws, steps", "why_tests_cant": "All draws and profiles; documented in the wiki.", "anchors": ["trumania/core/clock.py:CyclicTimerGenerator.generate", "trumania/core/story.py:Story.execute"]}
{"id": "C32", "title": "Duplicate observations are supported by timer generation", "statement": "generate returns a timer for every row of the observations, even with duplicate index values (as its comment says).", "quantifier": "all series with duplicates", "why_tests_cant": "All series.", "anchors": ["trumania/core/clock.py:CyclicTimerGenerator.generate"]}
{"id": "C33", "title": "latest_date_before finds the latest aligned date", "statement": "For time_step > 0 the result is starting_date + n*time_step for an integer n, is <= upper_bound, and result + time_step > upper_bound; the search terminates.", "quantifier": "all dates, all positive steps", "why_tests_cant": "All dates; termination.", "anchors": ["trumania/core/util_functions.py:latest_date_before"]}
{"id": "C34", "title": "activity() converts rates correctly", "statement": "activity(n, per) is n times (profile duration / per): activity is linear in n and scaling per and n together changes nothing.", "quantifier": "all n, per, profiles", "why_tests_cant": "All values.", "anchors": ["trumania/core/clock.py:CyclicTimerGenerator.activity", "trumania/core/clock.py:CyclicTimerProfile.duration"]}
{"id": "C35", "title": "Work-hours profile has exactly the work hours", "statement": "For 0<=start<=end<24 the week profile has 168 hourly bins, with non-zero weight exactly on Monday-Friday between start and end hours included.", "quantifier": "all hour pairs", "why_tests_cant": "All pairs.", "anchors": ["trumania/components/time_patterns/profilers.py:WorkHoursTimerGenerator"]}
{"id": "C36", "title": "add_relations adds exactly the given relations", "statement": "After add_relations the multiset of (from,to,weight) is the old one plus one per given line.", "quantifier": "all relationships, all lines", "why_tests_cant": "All orders and repetitions of from ids.", "anchors": ["trumania/core/relationship.py:Relationship.add_relations", "trumania/core/relationship.py:Relations.from_tuples", "trumania/core/relationship.py:Relations.plus"]}
{"id": "C37", "title": "remove_relations removes exactly the given pairs", "statement": "After remove_relations no relation between any listed pair remains and every other relation is unchanged.", "quantifier": "all relationships, all pairs", "why_tests_cant": "All pairs, including ids the relationship does not know.", "anchors": ["trumania/core/relationship.py:Relationship.remove_relations", "trumania/core/relationship.py:Relations.minus"]}
{"id": "C38", "title": "Relations stay well-formed", "statement": "After any sequence of adds, removes, selections and pops, ids and weights of each from have the same length and the normalised weights are the weights divided by their sum.", "quantifier": "all histories", "why_tests_cant": "All histories of in-place mutations.", "anchors": ["trumania/core/relationship.py:Relations", "trumania/core/relationship.py:Relations.remove_inplace"]}
{"id": "C39", "title": "get_relations / neighbourhood size / unique_tos are faithful views", "statement": "get_relations(ids) returns exactly the relations whose from is in ids; get_neighbourhood_size their number (0 if unknown); unique_tos the set of to ids.", "quantifier": "all relationships, all id lists", "why_tests_cant": "All.", "anchors": ["trumania/core/relationship.py:Relationship.get_relations", "trumania/core/relationship.py:Relationship.get_neighbourhood_size", "trumania/core/relationship.py:Relationship.unique_tos"]}
{"id": "C40", "title": "select_one picks an existing relation for each request", "statement": "Each result row is aligned with its request's index and holds a to id related to the requested from; with discard_empty=False exactly the requests without relation get None, with True they are absent.", "quantifier": "all relationships, requests, draws", "why_tests_cant": "All draws.", "anchors": ["trumania/core/relationship.py:Relationship.select_one", "trumania/core/relationship.py:Relations.pick_one"]}
{"id": "C41", "title": "one_to_one selection is injective and loses nothing needlessly", "statement": "With one_to_one no to id occurs twice, every to id that was picked for some request is still in the result, and blank results are all kept.", "quantifier": "all draws, all requests", "why_tests_cant": "All draws.", "anchors": ["trumania/core/relationship.py:Relationship.select_one"]}
{"id": "C42", "title": "select_one with pop removes exactly the selected relations", "statement": "Relations present before = relations present after + relations selected (as multisets).", "quantifier": "all histories, draws", "why_tests_cant": "Concurrent requests to the same from.", "anchors": ["trumania/core/relationship.py:Relationship.select_one", "trumania/core/relationship.py:Relations.remove_inplace"]}
{"id": "C43", "title": "No item is sold twice within one step", "statement": "With pop=True and one_to_one=True no relation is selected twice in a call nor again in any later call, unless added again.", "quantifier": "all sequences of selections", "why_tests_cant": "All sequences.", "anchors": ["trumania/core/relationship.py:Relationship.select_one"]}
{"id": "C44", "title": "Zero-weight relations are not selected", "statement": "If a from has at least two relations with non-negative weights of positive sum, a relation of weight 0 is never picked.", "quantifier": "all weights, draws", "why_tests_cant": "All draws.", "anchors": ["trumania/core/relationship.py:Relations.pick_one"]}
{"id": "C45", "title": "cap_to_total caps fairly and exactly", "statement": "For non-negative quantities and total>=0 the result has the same length, each value between 0 and the request, the sum is min(sum of requests, total), and each request is served fully before later ones get anything.", "quantifier": "all lists, totals", "why_tests_cant": "All lists.", "anchors": ["trumania/core/util_functions.py:cap_to_total"]}
{"id": "C46", "title": "select_many respects quantities and never gives a relation twice", "statement": "Each request receives at most its quantity of distinct relations of its from; two requests of one call never receive the same relation; per from the total is min(total requested, available).", "quantifier": "all requests, draws", "why_tests_cant": "All draws.", "anchors": ["trumania/core/relationship.py:Relationship.select_many", "trumania/core/relationship.py:Relations.pick_many", "trumania/core/util_functions.py:cap_to_total"]}
{"id": "C47", "title": "select_many with pop removes exactly the selected relations", "statement": "Relations before = relations after + relations given out.", "quantifier": "all requests", "why_tests_cant": "Several requests on the same from in one call.", "anchors": ["trumania/core/relationship.py:Relationship.select_many"]}
{"id": "C48", "title": "select_many keeps all requests when asked", "statement": "With discard_empty=False every request index is in the result exactly once, with an empty list when nothing was given.", "quantifier": "all requests", "why_tests_cant": "All.", "anchors": ["trumania/core/relationship.py:Relationship.select_many"]}
{"id": "C49", "title": "The remove operation removes relations", "statement": "relationship.ops.remove(from, item) removes the relations listed in the story data.", "quantifier": "all data", "why_tests_cant": "The method it calls does not exist; no test runs it.", "anchors": ["trumania/core/relationship.py:RelationshipOps.Remove"]}
{"id": "C50", "title": "add_grouped is a flattened add", "statement": "add_grouped_relations(froms, lists) adds exactly one relation of weight 1 per (from, element of its list).", "quantifier": "all lists", "why_tests_cant": "All lists, including empty ones.", "anchors": ["trumania/core/relationship.py:Relationship.add_grouped_relations"]}
{"id": "C51", "title": "select_all returns all relations of each from", "statement": "select_all_horizontal returns one row per requested from that has relations, with the list of all its to ids.", "quantifier": "all relationships", "why_tests_cant": "All.", "anchors": ["trumania/core/relationship.py:Relationship.select_all_horizontal", "trumania/core/relationship.py:RelationshipOps.SelectAll"]}
{"id": "C52", "title": "Attribute updates are point updates", "statement": "After update(series), the listed members have the given value, everyone else keeps theirs, unknown members are added; get_values(ids) returns values in the order of ids and raises for unknown ids.", "quantifier": "all tables, series", "why_tests_cant": "All.", "anchors": ["trumania/core/attribute.py:Attribute.update", "trumania/core/attribute.py:Attribute.get_values"]}
{"id": "C53", "title": "Attribute.update with repeated ids keeps the last value", "statement": "update with a series naming a member several times stores the last value.", "quantifier": "all series with duplicates", "why_tests_cant": "Needs duplicates, which story data easily contain.", "anchors": ["trumania/core/attribute.py:Attribute.update", "trumania/core/attribute.py:AttributeOps.Update"]}
{"id": "C54", "title": "Attribute.add accumulates", "statement": "add(ids, values) adds to each member the sum of all values listed for it; total order-independent; others unchanged; unknown ids raise.", "quantifier": "all tables, lists", "why_tests_cant": "All multiplicities and orders.", "anchors": ["trumania/core/attribute.py:Attribute.add"]}
{"id": "C55", "title": "Population ids stay unique", "statement": "A population is only constructed with distinct ids and no sequence of updates introduces a duplicate.", "quantifier": "all histories", "why_tests_cant": "All histories.", "anchors": ["trumania/core/population.py:Population.__init__", "trumania/core/population.py:Population.update"]}
{"id": "C56", "title": "Population size is the number of members", "statement": "population.size is the number of ids at all times.", "quantifier": "all histories", "why_tests_cant": "After dynamic creation of members.", "anchors": ["trumania/core/population.py:Population.update"]}
{"id": "C57", "title": "Population.update stores full members", "statement": "After update(df) each listed id is a member and each attribute has for it the value of its last row in df; other members keep theirs; a df missing an attribute raises and changes nothing.", "quantifier": "all populations, frames", "why_tests_cant": "All frames.", "anchors": ["trumania/core/population.py:Population.update"]}
{"id": "C58", "title": "A relationship name is not silently reused", "statement": "create_relationship refuses an existing name.", "quantifier": "all populations", "why_tests_cant": "The guard compares with 'is'; no test.", "anchors": ["trumania/core/population.py:Population.create_relationship"]}
{"id": "C59", "title": "lookup returns the current attribute values", "statement": "ops.lookup adds for each row the current attribute value of the member named in the row (elementwise for list columns), keeping rows and order.", "quantifier": "all data, attributes", "why_tests_cant": "All.", "anchors": ["trumania/core/population.py:PopulationOps.Lookup"]}
{"id": "C60", "title": "Weighted member selection respects weights", "statement": "population.ops.select_one only draws member ids, never one with weight 0; negative or all-zero weights are refused.", "quantifier": "all draws, weights", "why_tests_cant": "All draws.", "anchors": ["trumania/core/population.py:PopulationOps.select_one"]}
{"id": "C61", "title": "Sequential ids are unique for ever", "statement": "All ids produced by any sequence of generate calls of one SequencialGenerator are distinct, even beyond max_length digits, and consecutive.", "quantifier": "all sequences of calls, all sizes", "why_tests_cant": "Unbounded sequences.", "anchors": ["trumania/core/random_generators.py:SequencialGenerator.generate", "trumania/core/util_functions.py:build_ids"]}
{"id": "C62", "title": "MSISDNs are unique for ever and well-formed", "statement": "All numbers ever produced by one MSISDNGenerator are distinct, made of country code, one of the prefixes and exactly length digits; asking for more than remain raises.", "quantifier": "all call sequences, draws", "why_tests_cant": "All sequences.", "anchors": ["trumania/core/random_generators.py:MSISDNGenerator"]}
{"id": "C63", "title": "Sequential generators survive persistence", "statement": "A saved and reloaded SequencialGenerator continues the sequence exactly where the original was.", "quantifier": "all states", "why_tests_cant": "All states.", "anchors": ["trumania/core/random_generators.py:SequencialGenerator.save_to", "trumania/core/random_generators.py:SequencialGenerator.load_from"]}
{"id": "C64", "title": "Numpy generators survive persistence", "statement": "A saved and reloaded NumpyRandomGenerator produces the same values as the original would.", "quantifier": "all states", "why_tests_cant": "The corresponding test is not collected (its name lacks the test_ prefix).", "anchors": ["trumania/core/random_generators.py:NumpyRandomGenerator.load_from"]}
{"id": "C65", "title": "Triggers respect certain probabilities", "statement": "A dependent trigger always fires for probability >= 1 and never for probability <= 0, one boolean per observation.", "quantifier": "all draws", "why_tests_cant": "All draws.", "anchors": ["trumania/core/random_generators.py:DependentTrigger.generate"]}
{"id": "C66", "title": "generate with a quantity field partitions the stream", "statement": "Row i gets a list of exactly its quantity of values and the concatenation of the lists is the generated stream in order.", "quantifier": "all quantity columns", "why_tests_cant": "All.", "anchors": ["trumania/core/random_generators.py:GeneratorOps.RandomValues"]}
{"id": "C67", "title": "bound_value clamps", "statement": "bound_value(lb,ub) returns values in [lb,ub] when lb<=ub, is the identity inside, is monotone and idempotent.", "quantifier": "all values", "why_tests_cant": "All values.", "anchors": ["trumania/core/operations.py:bound_value"]}
{"id": "C68", "title": "logistic stays in range and is monotone", "statement": "logistic(k,x0,L) with L>0 lies strictly between 0 and L, never below L/(1+e^10) and is non-decreasing for k>=0.", "quantifier": "all reals", "why_tests_cant": "All reals.", "anchors": ["trumania/core/operations.py:logistic"]}
{"id": "C69", "title": "ensure_non_existing_dir deletes that tree and nothing else", "statement": "Afterwards the path does not exist and every path not below it is unchanged.", "quantifier": "all file trees", "why_tests_cant": "All trees.", "anchors": ["trumania/core/util_functions.py:ensure_non_existing_dir"]}
{"id": "C70", "title": "Relationship persistence keeps relations and seed", "statement": "load(save(r)) has the same relations (as a multiset) and the same seed.", "quantifier": "all relationships", "why_tests_cant": "All.", "anchors": ["trumania/core/relationship.py:Relationship.save_to", "trumania/core/relationship.py:Relationship.load_from"]}
{"id": "C71", "title": "Population persistence is a round trip", "statement": "load(save(p)) has the same ids in the same order, attributes and relations.", "quantifier": "all populations", "why_tests_cant": "All.", "anchors": ["trumania/core/population.py:Population.save_to", "trumania/core/population.py:Population.load_from"]}
{"id": "C72", "title": "Circus persistence is a round trip", "statement": "load_from_db(save_to_db(c)) restores master seed, clock start and step, populations and generators.", "quantifier": "all circuses", "why_tests_cant": "Name-dependent: generator ids with dots, timer folders.", "anchors": ["trumania/core/circus.py:Circus.save_to_db", "trumania/core/circus.py:Circus.load_from_db", "trumania/components/db.py:list_generators"]}
{"id": "C73", "title": "save_to_db refuses to overwrite", "statement": "If the namespace exists and overwrite is False nothing changes and an error is raised; with overwrite nothing of the old namespace remains.", "quantifier": "all file systems", "why_tests_cant": "All.", "anchors": ["trumania/core/circus.py:Circus.save_to_db"]}
{"id": "C74", "title": "Selections are reproducible across processes", "statement": "select_one() over all froms gives the same result for the same seed and relations, whatever the hash seed of the process.", "quantifier": "all set iteration orders", "why_tests_cant": "Depends on PYTHONHASHSEED.", "anchors": ["trumania/core/relationship.py:Relationship.select_one", "trumania/core/util_functions.py:merge_2_dicts"]}
{"id": "C75", "title": "merge_2_dicts merges pointwise", "statement": "The merged dictionary has exactly the union of the keys, the single value where a key is in one, the merged value where it is in both; without merge function a conflict raises; None is neutral.", "quantifier": "all dictionaries", "why_tests_cant": "All.", "anchors": ["trumania/core/util_functions.py:merge_2_dicts", "trumania/core/util_functions.py:merge_dicts"]}
{"id": "C76", "title": "Random bipartite edges join the two groups", "statement": "Every returned edge has its first end in group1 and second end in group2, at the positions networkx drew; empty groups or p=0 give no edge.", "quantifier": "all graphs", "why_tests_cant": "All graphs.", "anchors": ["trumania/core/util_functions.py:make_random_bipartite_data"]}
{"id": "C77", "title": "Random assignment is total", "statement": "make_random_assign gives each element of set1, in order, exactly one element of set2.", "quantifier": "all draws", "why_tests_cant": "All draws.", "anchors": ["trumania/core/util_functions.py:make_random_assign"]}
{"id": "C78", "title": "ER social networks are symmetric", "statement": "After add_er_social_network_relationship a is related to b iff b is to a, only between members, and no member is related to itself.", "quantifier": "all graphs", "why_tests_cant": "All graphs.", "anchors": ["trumania/components/social_networks/erdos_renyi.py:WithErdosRenyi.add_er_social_network_relationship"]}
{"id": "C79", "title": "Stock creation gives every item to exactly one member", "statement": "create_stock_relationship yields exactly n_items_per_member * size items, each related to exactly one member.", "quantifier": "all draws", "why_tests_cant": "All draws.", "anchors": ["trumania/core/population.py:Population.create_stock_relationship"]}
{"id": "C80", "title": "Random proportions are proportions", "statement": "assign_random_proportions gives rows (a,b,w) with a in group1, b in group2, w in [0,1], and for each a that appears the weights sum to 1.", "quantifier": "all draws, all groups", "why_tests_cant": "All draws.", "anchors": ["trumania/core/util_functions.py:assign_random_proportions"]}
{"id": "C81", "title": "generate(size=n) gives n values", "statement": "For every generator (constant, numpy, Pareto, sequential, msisdn, mapped, bulk, ...) a successful generate(size=n) returns exactly n values.", "quantifier": "all generators, all n", "why_tests_cant": "Every generator composition and every n.", "anchors": ["trumania/core/random_generators.py:Generator.generate", "trumania/core/random_generators.py:Generator.map"]}
{"id": "C82", "title": "Pareto values are at least xmin", "statement": "ParetoGenerator without force_int (or with an integer xmin) never gives a value below xmin.", "quantifier": "all draws", "why_tests_cant": "All draws.", "anchors": ["trumania/core/random_generators.py:ParetoGenerator.generate"]}
{"id": "C83", "title": "seed_provider seeds are valid", "statement": "Every seed given by seed_provider is a valid RandomState seed (0 <= seed < 2**32).", "quantifier": "all master seeds, all positions", "why_tests_cant": "Infinite sequence.", "anchors": ["trumania/core/random_generators.py:seed_provider"]}
{"id": "C84", "title": "map applies the function to each parent value", "statement": "generator.map(f) yields, in order, exactly f applied to the values its parent generates, and draws nothing else.", "quantifier": "all functions, all parents", "why_tests_cant": "All functions.", "anchors": ["trumania/core/random_generators.py:Generator.map", "trumania/core/random_generators.py:MappedGenerator"]}
{"id": "C85", "title": "Generated columns are filled row by row", "statement": "A generate operation fills its column with the successive values of the generator, a timestamp operation with one time stamp of the current step per row, a neighbourhood-size operation with the number of relations of the member named in each row.", "quantifier": "all story data, generators, clocks, relationships", "why_tests_cant": "All rows of all frames.", "anchors": ["trumania/core/random_generators.py:GeneratorOps.RandomValues", "trumania/core/clock.py:Clock.ClockOps.Timestamp", "trumania/core/relationship.py:RelationshipOps.AddNeighbourhoodSize"]}
{"id": "C86", "title": "Selections inside a chain give related items", "statement": "A select_one, select_many or select_all operation puts in each surviving row items related to the member named in that row (within the requested quantity for select_many), drops exactly the rows it documents to drop, and with pop the sold relations, and only these, disappear from the relationship.", "quantifier": "all story data, relationships reachable in any circus, draws", "why_tests_cant": "All rows, draws and histories.", "anchors": ["trumania/core/relationship.py:RelationshipOps.SelectOne", "trumania/core/relationship.py:RelationshipOps.SelectMany", "trumania/core/relationship.py:RelationshipOps.SelectAll"]}
{"id": "C87", "title": "Add operations store one relation per row", "statement": "relationship.ops.add stores exactly one relation of weight 1 per row, add_grouped exactly one per element of the list of each row, and keeps all the others.", "quantifier": "all story data, relationships", "why_tests_cant": "All.", "anchors": ["trumania/core/relationship.py:RelationshipOps.Add", "trumania/core/relationship.py:RelationshipOps.AddGrouped"]}
{"id": "C88", "title": "to_dataframe shows every attribute of every member", "statement": "population.to_dataframe() has one row per member, in the order of the ids, one column per attribute, and each cell is the current value of that attribute for that member; it fails only if some member lacks some attribute.", "quantifier": "all populations of all circuses", "why_tests_cant": "All populations and histories.", "anchors": ["trumania/core/population.py:Population.to_dataframe"]}
{"id": "C89", "title": "Initial attribute values reach the right member", "statement": "create_attribute gives member i the i-th given or generated value, or the given scalar, or with init_relationship one of the items the member is related to.", "quantifier": "all populations, values, generators, relationships, draws", "why_tests_cant": "All.", "anchors": ["trumania/core/population.py:Population.create_attribute", "trumania/core/attribute.py:Attribute.__init__"]}
{"id": "C90", "title": "An explicit relationship seed is used", "statement": "create_relationship(name, seed=s) creates a relationship seeded with s and does not consume the circus seeder.", "quantifier": "all seeds", "why_tests_cant": "All seeds; seed 0 is a special case of the code.", "anchors": ["trumania/core/population.py:Population.create_relationship"]}
{"id": "C91", "title": "Generators keep their definition", "statement": "Whatever is called afterwards, a generator keeps its kind and parameters; only its position changes.", "quantifier": "all histories of calls", "why_tests_cant": "All histories.", "anchors": ["trumania/core/random_generators.py:Generator.generate", "trumania/core/population.py:PopulationOps.select_one"]}
{"id": "C92", "title": "bounded_sigmoid runs from 0 to 1", "statement": "bounded_sigmoid(x_min,x_max,shape) stays in [0,1], is 0 up to x_min and 1 from x_max on, and is monotone (increasing, or decreasing with incrementing=False).", "quantifier": "all reals, all shapes", "why_tests_cant": "All reals.", "anchors": ["trumania/core/operations.py:bounded_sigmoid"]}
{"id": "C93", "title": "copy_if copies exactly where the condition holds", "statement": "Apply(..., f=copy_if) puts the source value in the rows where the condition is True and NA in the others, whatever the order of the rows.", "quantifier": "all story data", "why_tests_cant": "All data; the documented argument order.", "anchors": ["trumania/core/operations.py:copy_if", "trumania/core/operations.py:Apply"]}
{"id": "C94", "title": "Apply with series stores f of the columns", "statement": "Apply(source_fields, named_as, f, f_args='series') adds the column f(*columns), row by row, and changes no other cell. With f_args='dataframe', f is given the source columns; when it returns as many columns as named_as has names, these names are given to the new columns in order, and each row gets the cells returned under its label.", "quantifier": "all functions, all story data", "why_tests_cant": "All functions.", "anchors": ["trumania/core/operations.py:Apply.build_output"]}
{"id": "C95", "title": "Attribute tables survive persistence exactly when their columns are clean", "statement": "Reading back the file of an attribute gives the same table if and only if its ids and its values are each all numbers, all booleans, or all texts of which one does not look like a number, missing cells aside.", "quantifier": "all attribute tables, all text formats", "why_tests_cant": "All tables; silent type changes.", "anchors": ["trumania/core/attribute.py:Attribute.save_to", "trumania/core/attribute.py:Attribute.load_from"]}
{"id": "C96", "title": "Timer profiles survive persistence", "statement": "CyclicTimerProfile.load_from after save_to gives the same weights, start date and step.", "quantifier": "all profiles", "why_tests_cant": "All profiles.", "anchors": ["trumania/core/clock.py:CyclicTimerProfile.save_to", "trumania/core/clock.py:CyclicTimerProfile.load_from"]}
{"id": "C97", "title": "Empirical distributions survive persistence", "statement": "load_empirical_discrete_generator returns a generator choosing the saved values with the saved probabilities; a distribution that does not sum to one is refused on saving.", "quantifier": "all distributions", "why_tests_cant": "All distributions; the check is one-sided.", "anchors": ["trumania/components/db.py:save_empirical_discrete_generator", "trumania/components/db.py:load_empirical_discrete_generator"]}
{"id": "C98", "title": "Relations are selected in proportion to their weight", "statement": "select_one uses one random number per request whose from id has several relations and none for the others; the number selects the relation on which it falls when the weights (stored or overridden) are laid end to end, so that each to id is selected with the share of the total weight it has; discard_empty only drops the requests without answer.", "quantifier": "all reachable relationships, requests, override weights, random numbers", "why_tests_cant": "A frequency over all random numbers; a test sees a few draws.", "anchors": ["trumania/core/relationship.py:Relationship.select_one"]}
{"id": "C99", "title": "Triggers fire with their probability", "statement": "DependentTriggerGenerator uses one random number per observation, in order, and fires exactly when the number is below the probability of the observation: for a probability p, for p of all the numbers.", "quantifier": "all probability functions, observations, random numbers", "why_tests_cant": "A frequency over all random numbers.", "anchors": ["trumania/core/random_generators.py:DependentTriggerGenerator"]}
{"id": "C100", "title": "Back-to-default draws decide member by member", "statement": "During an execution each member that is in another state than default when the chain ends uses one random number, in order, and goes back to default exactly when the number is below the back_to_default_probability of its state; nobody else changes state.", "quantifier": "all stories, operations, probabilities, random numbers", "why_tests_cant": "All random numbers and mixes of probabilities.", "anchors": ["trumania/core/story.py:Story._MaybeBackToDefault"]}
{"id": "C101", "title": "Weighted choices follow their weights", "statement": "NumpyRandomGenerator(method='choice', a, p) gives, for each successive random number, the element on which it falls when the probabilities are laid end to end; method 'uniform' gives the numbers themselves.", "quantifier": "all lists, probabilities, sizes, random numbers", "why_tests_cant": "A frequency over all random numbers.", "anchors": ["trumania/core/random_generators.py:NumpyRandomGenerator"]}
{"id": "C102", "title": "Asking in one call or in several is the same", "statement": "For streaming generators, dependent generators and relationship selections (without pop or one_to_one), one call for n+m results gives the results of a call for n followed by one for m, and leaves the same state: no random number is reused or lost.", "quantifier": "all generators, sizes, requests", "why_tests_cant": "All splits of all calls.", "anchors": ["trumania/core/random_generators.py:Generator.generate", "trumania/core/random_generators.py:DependentGenerator", "trumania/core/relationship.py:Relationship.select_one"]}
{"id": "C103", "title": "Timers have the requested mean", "statement": "A timer of a member of activity a in (0, 2] is decided by one random number u: it is the bin where the profile, read cyclically from the current time, has accumulated 2u/a cycles; over all numbers the mean timer is 1/a cycles up to one cycle.", "quantifier": "all profiles, clock positions, activities, random numbers", "why_tests_cant": "A mean over all random numbers.", "anchors": ["trumania/core/clock.py:CyclicTimerGenerator.generate"]}
{"id": "C104", "title": "Calls change nothing but the objects they are given", "statement": "An operation, an execution of a story or a call of the user leaves every population, attribute, relationship, generator, timer, story, the clock and the seeder as they are, unless it was built with or applied to them, also when it raises.", "quantifier": "all circuses, operations, stories, calls, failures", "why_tests_cant": "All objects of all circuses; tests look at the object under test.", "anchors": ["trumania/core/story.py:Story.execute", "trumania/core/operations.py:Operation", "trumania/core/circus.py:Circus"]}
{"id": "C105", "title": "The result of a story depends only on its own objects", "statement": "Two circuses that agree on the objects a story was given produce the same logs and the same changes for it; two stories, neither of which changes an object the other uses, can be executed in any order with the same logs and the same resulting circus.", "quantifier": "all circuses, stories", "why_tests_cant": "All pairs of circuses and all orders.", "anchors": ["trumania/core/story.py:Story.execute", "trumania/core/circus.py:Circus.run"]}
{"id": "C106", "title": "Independent stories do not disturb each other over a run", "statement": "In any history, the results of a set of stories and calls are those of the same history without the others, as long as the others change no object the set uses.", "quantifier": "all histories, all sets of objects", "why_tests_cant": "All histories.", "anchors": ["trumania/core/story.py:Story.execute", "trumania/core/circus.py:Circus.run"]}
{"id": "C107", "title": "Operations on stories act on exactly the members named by their rows", "statement": "force_act_next(field, condition) makes act the members named under the field by the rows where the condition holds, and changes no other counter or state; transit_to_state puts each named member in the state of the last row naming it and changes nothing else; reset_timers gives a new counter exactly to the named members that are not forced. Missing ids are skipped; force_act_next with an unknown id raises and makes nobody act.", "quantifier": "all stories, story data, conditions", "why_tests_cant": "All rows, repetitions, missing values and conditions.", "anchors": ["trumania/core/story.py:StoryOps.ForceActNext", "trumania/core/story.py:StoryOps.TransitToState", "trumania/core/story.py:StoryOps.ResetTimers"]}
{"id": "C108", "title": "Operations on attributes and populations act on exactly the members named by their rows", "statement": "attribute.ops.update gives each member of the id column the value of its row and keeps the others; population.ops.update makes every id of the column a member carrying the copied values of the last row naming it; creating an attribute, whatever its initialisation, leaves the relations of every relationship alone.", "quantifier": "all circuses, story data", "why_tests_cant": "All rows, repetitions and new members.", "anchors": ["trumania/core/attribute.py:AttributeOps.Update", "trumania/core/population.py:PopulationOps.Update", "trumania/core/attribute.py:Attribute.__init__"]}
{"id": "C109", "title": "Random numbers are used once", "statement": "A selection, a draw of a generator or of a timer, or a random assignment leaves its random source after exactly the numbers its outcome depends on: any source with the same next numbers gives the same outcome, so later calls use fresh numbers.", "quantifier": "all relationships, generators, timers, requests, random sources", "why_tests_cant": "A dependence over all random streams.", "anchors": ["trumania/core/relationship.py:Relationship.select_one", "trumania/core/relationship.py:Relationship.select_many", "trumania/core/random_generators.py:NumpyRandomGenerator.generate", "trumania/core/clock.py:CyclicTimerGenerator.generate", "trumania/core/util_functions.py:make_random_assign"]}
{"id": "C110", "title": "Members act within a bounded number of steps", "statement": "In an auto-reset story with a cyclic timer, a member whose activity is at least lo acts at least once in every window of (steps per cycle) * ceil(2/lo) executions, wherever the window starts, provided nobody forces, resets or ticks the story.", "quantifier": "all stories, profiles, activities, draws, histories and windows", "why_tests_cant": "Liveness over unbounded histories and all draws.", "anchors": ["trumania/core/story.py:Story.execute", "trumania/core/clock.py:CyclicTimerGenerator.generate"]}
{"id": "C111", "title": "The sample geography is complete and consistent", "statement": "add_uganda_geography(force_build=True) adds a population of 200 cells, each with latitude, longitude and HEALTH, and a population of 1 to 200 cities with distinct names, each with a population figure; each cell belongs to exactly one city; what was in the circus before is unchanged; it succeeds exactly if its names are free and its timer can be built.", "quantifier": "all circuses, all draws", "why_tests_cant": "All circuses and draws.", "anchors": ["trumania/components/geographies/uganda.py:WithUganda.add_uganda_geography", "trumania/components/geographies/uganda.py:build_uganda_populations"]}
{"id": "C112", "title": "The geographies can be obtained by the documented calls", "statement": "add_uganda_geography() with its default argument, the script storing the geography and create_random_cells produce a geography.", "quantifier": "all circuses", "why_tests_cant": "No test calls them.", "anchors": ["trumania/components/geographies/uganda.py:WithUganda.add_uganda_geography", "trumania/components/geographies/random_geo.py:WithRandomGeo.create_random_cells"]}
{"id": "C113", "title": "The cell_status log tells the HEALTH of the cells", "statement": "Each execution of one of the two stories of the geography logs one line per acting cell, timed within the current step; afterwards the HEALTH of these cells is the logged level and that of the others is unchanged.", "quantifier": "all histories, draws, clocks", "why_tests_cant": "All histories.", "anchors": ["trumania/components/geographies/uganda.py:WithUganda.add_uganda_geography"]}
{"id": "C114", "title": "Every cell breaks down at least once a day", "statement": "Whatever the draws, each cell breaks down at least once in any 24 hours of executions.", "quantifier": "all histories, draws, windows of a day", "why_tests_cant": "Liveness for all draws.", "anchors": ["trumania/components/geographies/uganda.py:WithUganda.add_uganda_geography"]}
{"id": "C115", "title": "Repairs follow break-downs", "statement": "When a cell breaks down it is repaired exactly once, at an execution of the repair story that is decided then, within 24 hours, unless it breaks down again before; a cell is only repaired after a break-down since its last repair.", "quantifier": "all histories, draws", "why_tests_cant": "All histories.", "anchors": ["trumania/components/geographies/uganda.py:WithUganda.add_uganda_geography"]}
{"id": "C116", "title": "The geography runs for ever without error", "statement": "With a clock step of at least one second, no sequence of executions of the two stories and clock increments raises.", "quantifier": "all histories, draws", "why_tests_cant": "Unbounded histories.", "anchors": ["trumania/components/geographies/uganda.py:WithUganda.add_uganda_geography"]}
{"id": "C117", "title": "Timers follow their profile for any clock step", "statement": "Whatever the profile step and the clock step, after any number of ticks and calls the timers are drawn from the weights the profile gives to the dates of the following clock steps, and the cycle of the timer is the cycle of the profile.", "quantifier": "all profiles, clock steps, dates, histories of ticks and draws, random numbers", "why_tests_cant": "All steps and all histories.", "anchors": ["trumania/core/clock.py:CyclicTimerGenerator.__init__", "trumania/core/clock.py:CyclicTimerGenerator.increment", "trumania/core/clock.py:CyclicTimerGenerator.generate"]}
{"id": "C118", "title": "A cyclic timer can be built for any clock step and date", "statement": "Building a CyclicTimerGenerator terminates without error, its first bin being the first one at the current date or later.", "quantifier": "all profiles, clock steps, dates", "why_tests_cant": "All dates; an endless loop.", "anchors": ["trumania/core/clock.py:CyclicTimerGenerator.__init__"]}
{"id": "C119", "title": "The weights of a profile decide when members act, wherever it starts", "statement": "Members of different activity act in periods of positive weight, whatever the start date of the profile.", "quantifier": "all profiles, start dates, clock steps, observations, random numbers", "why_tests_cant": "All start dates; NaN in the cumulated weights.", "anchors": ["trumania/core/clock.py:CyclicTimerGenerator.__init__", "trumania/core/clock.py:CyclicTimerGenerator.generate"]}
{"id": "C120", "title": "Items in stock are conserved", "statement": "In a circus whose stories only make items with one generator, buy them from a stock with select_one(one_to_one, pop) and store what they made or bought in a stock, and otherwise leave the stocks and the generator alone, the stocks together hold at any time exactly what they held at the start and what the generator gave since, each item as often; when stories raise or throw items away, never more than that.", "quantifier": "all circuses, stories, histories, runs, random draws, failures", "why_tests_cant": "All histories and interleavings of stories.", "anchors": ["trumania/core/relationship.py:Relationship.select_one", "trumania/core/relationship.py:RelationshipOps.Add", "trumania/core/relationship.py:RelationshipOps.AddGrouped", "trumania/core/random_generators.py:SequencialGenerator", "trumania/core/random_generators.py:DependentBulkGenerator", "trumania/core/story.py:Story.execute", "examples/tutorial/example2.py:create_purchase_story", "tests/scenarios/test_snd.py:SndScenario"]}
{"id": "C121", "title": "No item is ever held twice", "statement": "In such a circus, when the items are identifiers of a sequential or MSISDN generator, no item is at any time held by two members, or twice by one, or in two stocks, also after stories raised; this also holds for items bought in bulk.", "quantifier": "all circuses, stories, histories, random draws, failures", "why_tests_cant": "All histories; duplicates appear only under particular interleavings.", "anchors": ["trumania/core/relationship.py:Relationship.select_one", "trumania/core/relationship.py:Relationship.select_many", "trumania/core/random_generators.py:SequencialGenerator.generate", "trumania/core/random_generators.py:MSISDNGenerator.generate", "tests/scenarios/test_snd.py:SndScenario.add_dealer_bulk_sim_purchase_story"]}
{"id": "C122", "title": "The logs can be read back", "statement": "After Circus.run, load_all_logs on the log folder gives one frame for each log id with emitted rows, with the logged columns and the emitted rows, whatever the order in which the files are listed.", "quantifier": "all circuses, runs, log ids, values, file orders", "why_tests_cant": "All values of all logs: the types are inferred from all cells of a column.", "anchors": ["trumania/core/util_functions.py:load_all_logs", "trumania/core/circus.py:Circus.run", "trumania/core/circus.py:Circus.save_logs"]}
{"id": "C123", "title": "Parameters stored beside a circus do not disturb it", "statement": "save_params_to_db writes one file in the namespace of the circus and changes nothing else; every circus is loaded as before; it succeeds exactly if the namespace exists; saving the circus again forgets the parameters.", "quantifier": "all trees, namespaces, parameters, circuses", "why_tests_cant": "All contents of the data base.", "anchors": ["trumania/core/circus.py:Circus.save_params_to_db", "trumania/core/circus.py:Circus.save_to_db", "trumania/core/circus.py:Circus.load_from_db"]}
{"id": "C124", "title": "Timer profiles and empirical generators stored in a namespace do not disturb it", "statement": "save_timer_gen and save_empirical_discrete_generator store the object where its load function finds it; everything stored before stays as it was, and circuses stored in that or another namespace can be loaded as before.", "quantifier": "all trees, namespaces, profiles, distributions, circuses", "why_tests_cant": "All contents of the data base.", "anchors": ["trumania/components/db.py:save_timer_gen", "trumania/components/db.py:load_timer_gen_config", "trumania/components/db.py:save_empirical_discrete_generator", "trumania/components/db.py:load_empirical_discrete_generator", "trumania/components/db.py:list_generators"]}
{"id": "C125", "title": "Namespaces are created and removed one by one", "statement": "create_namespace makes the namespace exist and keeps everything; remove_namespace removes it with all its content and nothing else, after which nothing can be loaded from it; is_namespace_existing tells so; save_to_db without overwrite refuses an existing namespace and writes nothing.", "quantifier": "all trees, namespaces", "why_tests_cant": "All contents of the data base.", "anchors": ["trumania/components/db.py:create_namespace", "trumania/components/db.py:remove_namespace", "trumania/components/db.py:is_namespace_existing", "trumania/core/circus.py:Circus.save_to_db"]}
{"id": "C126", "title": "A logger logs the columns it was given", "statement": "A FieldLogger logs the columns and exploded columns given at its construction, whatever loggers are constructed before or after from the same lists.", "quantifier": "all sequences of constructions, all sharing of lists", "why_tests_cant": "All aliasing patterns.", "anchors": ["trumania/core/operations.py:FieldLogger.__init__", "trumania/core/operations.py:FieldLogger.emit_logs"]}
{"id": "C127", "title": "Stock levels can be read off the logs", "statement": "If the items of a relationship are only taken by select_one with pop=True and one_to_one=True and put back by add and add_grouped, in stories which log the member and the item of each of these, then after any run what was there plus what the logs say was delivered is what is still there plus what the logs say was sold, item by item and member by member; nobody sells more than they were given; where items were given once none is sold twice. The same holds for the CSV files run writes.", "quantifier": "all circuses keeping such books, all histories and runs, all random draws", "why_tests_cant": "All histories.", "anchors": ["trumania/core/relationship.py:Relationship.select_one", "trumania/core/relationship.py:RelationshipOps.SelectOne", "trumania/core/operations.py:FieldLogger.emit_logs", "trumania/core/circus.py:Circus.run"]}
{"id": "C128", "title": "Account balances can be read off the logs", "statement": "If an attribute is only changed by add and subtract operations in stories which log the member and the amount, then after any run the value of each member is its initial value plus the credits in the logs minus the debits in the logs, and members the logs do not name keep their value. The same holds for the CSV files run writes.", "quantifier": "all circuses keeping such books, all histories and runs, all random draws", "why_tests_cant": "All histories.", "anchors": ["trumania/core/attribute.py:Attribute.add", "trumania/core/attribute.py:AttributeOps.Add", "trumania/core/attribute.py:AttributeOps.subtract", "trumania/core/operations.py:FieldLogger.emit_logs", "trumania/core/circus.py:Circus.run"]}
{"id": "C129", "title": "A circus can be described and printed", "statement": "description() tells the name and seed of the circus and, under their names, the size and the names of the attributes and relationships of every population and the parameters of every generator; str(circus) gives the same as JSON text.", "quantifier": "all circuses", "why_tests_cant": "All contents of a circus.", "anchors": ["trumania/core/circus.py:Circus.description", "trumania/core/circus.py:Circus.__str__", "trumania/core/population.py:Population.description", "trumania/core/random_generators.py:Generator.description"]}
{"id": "C130", "title": "What the logs tell is true", "statement": "In a circus whose stories give a new name to each column they add, every record of a log was logged during the execution of a story, for a member acting then, and each of its columns is what the operation filling it promises: an item selected from a relationship that no story changes is an item of the member shown beside it (or is missing, if the member has none and rows are not discarded), a looked up value is the value that member has for the attribute, if no story changes it, a generated value is one its generator can give, a computed column is the function of the columns shown, a timestamp lies in the current step. The same holds for the CSV files run writes; for the social network example each line names a person, a quote of theirs, a friend of theirs, both names and a time within the run.", "quantifier": "all circuses and stories of that kind, all histories and runs, all random draws", "why_tests_cant": "All histories and draws; tests look at a few lines of one run.", "anchors": ["trumania/core/operations.py:FieldLogger.emit_logs", "trumania/core/relationship.py:RelationshipOps.SelectOne", "trumania/core/population.py:PopulationOps.Lookup", "trumania/core/clock.py:ClockOps.Timestamp", "trumania/core/circus.py:Circus.run", "examples/datacamp-blogpost/06-the-social-network.py"]}
{"id": "C131", "title": "Logs are in the order of simulated time", "statement": "If every logger of a log shows a column filled by the timestamp operation, all timestamps of the log lie within the time simulated, and records are in the order of the clock steps of their timestamps; if the timestamps are not random, they are in the order of their timestamps.", "quantifier": "all circuses, loggers, histories and runs, all draws", "why_tests_cant": "All histories.", "anchors": ["trumania/core/clock.py:ClockOps.Timestamp", "trumania/core/story.py:Story.execute", "trumania/core/circus.py:Circus.run", "trumania/core/circus.py:Circus.save_logs"]}
{"id": "C132", "title": "A log holds one record for each act", "statement": "If a single story logs under an id, once per execution and before any of its rows can be dropped, the log holds exactly one record for each time a member acts, in the order in which they act.", "quantifier": "all circuses with such a story, all histories and runs, all draws", "why_tests_cant": "All histories.", "anchors": ["trumania/core/story.py:Story.execute", "trumania/core/operations.py:FieldLogger.emit_logs", "trumania/core/circus.py:Circus.run"]}
{"id": "C133", "title": "Generators give only values of their support", "statement": "Whatever happened before and however often it is asked, a generator gives only values its definition allows: the constant, one of the values to choose from whose probability is not 0, a number in [0,1), an identifier with its prefix and width, a phone number with one of its prefixes, the function of a map applied to what its parent can give, a list of what the element generator can give.", "quantifier": "all circuses, generators, histories of calls, sizes, random draws", "why_tests_cant": "All draws; tests sample.", "anchors": ["trumania/core/random_generators.py:Generator.generate", "trumania/core/random_generators.py:NumpyRandomGenerator", "trumania/core/random_generators.py:ParetoGenerator", "trumania/core/random_generators.py:SequencialGenerator", "trumania/core/random_generators.py:MSISDNGenerator", "trumania/core/random_generators.py:Generator.map", "trumania/core/random_generators.py:DependentBulkGenerator"]}
{"id": "C134", "title": "A well-formed circus never raises", "statement": "If the operations of every story use columns that exist, add new ones, ask relationships, attributes, generators and stories that exist, and only look up, force, reset and move members known there, then no sequence of executions, clock increments, and calls forcing, resetting, ticking or moving known members to declared states raises, and Circus.run completes for any duration. For the social network example it is enough that everybody has a name and a friend.", "quantifier": "all well-formed circuses, all sequences of calls, all durations, all random draws", "why_tests_cant": "Unbounded histories and all draws: an error may show up only after a rare draw.", "anchors": ["trumania/core/story.py:Story.execute", "trumania/core/circus.py:Circus.run", "trumania/core/operations.py:Chain", "trumania/core/population.py:PopulationOps.Lookup", "examples/datacamp-blogpost/06-the-social-network.py"]}
{"id": "C135", "title": "Operations can be grouped into chains freely", "statement": "Two circuses that differ only in how the operations of their stories are grouped into (possibly nested or empty) chains behave alike: every execution, call and run gives the same logs, the same files written in the same order, or the same exception at the same point, and leaves everything else the same.", "quantifier": "all circuses, all groupings, all histories and runs, also failing ones", "why_tests_cant": "All nestings of all operations, all failures.", "anchors": ["trumania/core/operations.py:Chain.__call__", "trumania/core/story.py:Story.execute", "trumania/core/circus.py:Circus.run", "trumania/core/util_functions.py:merge_dicts"]}
{"id": "C136", "title": "What the logs tell was true when it was logged", "statement": "Also for attributes and relationships that stories change: each record of a log was produced by an execution of a story, and what it tells was true when that execution started: a looked up value is the value the attribute had then unless an operation of the same story changed it before, a selected item is one of the items the member had then unless an operation of the same story moved some before, a computed column is the function of the source columns of the same row.", "quantifier": "all circuses whose stories name the columns they add anew, all histories, all random draws", "why_tests_cant": "All histories and draws; a stale or crossed value shows up only in some state.", "anchors": ["trumania/core/operations.py:FieldLogger", "trumania/core/population.py:PopulationOps.Lookup", "trumania/core/relationship.py:Relationship.select_one", "trumania/core/story.py:Story.execute", "trumania/core/circus.py:Circus.run", "tests/scenarios/test_cdr.py:CdrScenario.add_mobility"]}
{"id": "C137", "title": "Journals of attributes have no gaps", "statement": "If stories change an attribute only by updates that they log, then after any history the value of a member is the last one logged for it, or the initial one if there is none; if the value looked up before is logged too, the records of each member lead from the initial value to the present one without a gap. So the mobility log of the CDR scenario tells each move, from where to where.", "quantifier": "all circuses with such stories, all histories and runs, all members", "why_tests_cant": "All histories, several stories and members interleaved.", "anchors": ["trumania/core/attribute.py:AttributeOps.Update", "trumania/core/population.py:PopulationOps.Lookup", "trumania/core/operations.py:FieldLogger", "trumania/core/circus.py:Circus.run", "tests/scenarios/test_cdr.py:CdrScenario.add_mobility"]}
{"id": "C138", "title": "The CDR scenario never raises", "statement": "The calls, messages, topups, mobility and cell break-down stories of the CDR scenario never raise, in whatever order they are executed or triggered and however long the scenario runs, provided every subscriber has a possible cell, every SIM card belongs to one subscriber, and attributes hold values of the right kind; without a cell, or with a shared SIM card, a run can raise.", "quantifier": "all circuses with these six stories, all populations, relationships, generators and random outcomes, all histories and runs", "why_tests_cant": "All interleavings of six stories that update each other's data; whether a later lookup fails depends on what all stories wrote before.", "anchors": ["tests/scenarios/test_cdr.py:CdrScenario", "tests/scenarios/test_cdr.py:select_sims", "tests/scenarios/test_cdr.py:compute_call_value", "components/geographies/uganda.py:WithUganda.add_uganda_geography", "trumania/core/circus.py:Circus.run", "trumania/core/operations.py:Chain"]}
{"id": "C139", "title": "Call, message and topup records of the CDR scenario are true", "statement": "Every record of the voice_cdr, sms_cdr and topups logs of the CDR scenario tells the truth about the moment it was logged: the caller was due, the callee is one of their contacts, numbers and operators are those of SIM cards they own (of a common operator if they have one), cells and health are the current ones, TYPE, STATUS, VALUE and account balances follow from them; records appear in the order in which they happened, also in the CSV files.", "quantifier": "all circuses with these six stories, all data, random outcomes, histories and runs", "why_tests_cant": "Every column of every record, whatever the six stories wrote before and in whatever order they ran.", "anchors": ["tests/scenarios/test_cdr.py:CdrScenario", "tests/scenarios/test_cdr.py:select_sims", "tests/scenarios/test_cdr.py:compute_cdr_type", "tests/scenarios/test_cdr.py:compute_call_status", "tests/scenarios/test_cdr.py:compute_call_value", "trumania/core/circus.py:Circus.run", "trumania/core/circus.py:Circus.save_logs"]}
{"id": "C140", "title": "CDR account balances can be recomputed from the logs", "statement": "After any history or run of the CDR scenario, the main account of every SIM card is its initial balance plus the topups logged for its number minus the values of calls and messages logged for its number, provided no two SIM cards share a number.", "quantifier": "all circuses with these six stories, all data, random outcomes, histories and runs", "why_tests_cant": "A conservation law over unbounded histories of three stories that read and write the same accounts.", "anchors": ["tests/scenarios/test_cdr.py:CdrScenario", "tests/scenarios/test_cdr.py:compute_call_value", "trumania/core/circus.py:Circus.run", "trumania/core/circus.py:Circus.save_logs", "trumania/core/attribute.py:Attribute.update"]}
{"id": "C141", "title": "Records of the sales and distribution scenario are true", "statement": "Every record of the purchases, bulk_purchases, distributor_restock, holidays and reviews logs of the SND scenario tells the truth about the moment it was logged: the member was due; the dealer or distributor named is one of theirs; a sale succeeds with a SIM of the dealer's stock exactly if that stock is not empty; a bulk holds at most the SIMs wanted and at most the stock; the number restocked is the one written down; reviews are signed with the current name of their author. Records appear in the order in which they happened, also in the CSV files.", "quantifier": "all circuses with these six stories, all data, random outcomes, histories and runs", "why_tests_cant": "Every column of every record, whatever the six stories wrote before and in whatever order they ran.", "anchors": ["tests/scenarios/test_snd.py:SndScenario.add_agent_sim_purchase_story", "tests/scenarios/test_snd.py:SndScenario.add_dealer_bulk_sim_purchase_story", "tests/scenarios/test_snd.py:SndScenario.add_distributor_recharge_story", "tests/scenarios/test_snd.py:SndScenario.add_agent_holidays_story", "tests/scenarios/test_snd.py:SndScenario.add_agent_reviews_stories", "trumania/core/circus.py:Circus.run", "trumania/core/circus.py:Circus.save_logs"]}
{"id": "C142", "title": "Stocks of the sales and distribution scenario can be recomputed from the logs", "statement": "After any history or run of the SND scenario, the SIMs of the agents are the initial ones and those logged as sold to them; the size of a dealer's stock is the initial one plus the SIMs of their logged bulk purchases minus their logged successful sales; so a dealer outside of the population of dealers (the broke dealer of the test) never has more successful sales than initial SIMs.", "quantifier": "all circuses with these six stories, all data, random outcomes, histories and runs", "why_tests_cant": "A conservation law over unbounded histories; the test checks the last part on one run with one seed.", "anchors": ["tests/scenarios/test_snd.py:test_snd_scenario", "tests/scenarios/test_snd.py:SndScenario.add_agent_sim_purchase_story", "tests/scenarios/test_snd.py:SndScenario.add_dealer_bulk_sim_purchase_story", "trumania/core/circus.py:Circus.run", "trumania/core/circus.py:Circus.save_logs", "trumania/core/relationship.py:Relations.select_one", "trumania/core/relationship.py:Relations.select_many"]}
{"id": "C143", "title": "Holidays of the sales and distribution scenario", "statement": "An agent whose purchases timer is negative never purchases again whatever happens next, unless someone resets the timer by hand; so the first successful purchase an agent makes while on holidays (activity 0) is their last one. In particular agents on holidays may purchase, and agents back from holidays need not purchase again.", "quantifier": "all circuses with these six stories, all data, random outcomes, histories before and after", "why_tests_cant": "Absence of an event over every unbounded continuation; the test never looks at agents coming back.", "anchors": ["tests/scenarios/test_snd.py:SndScenario.add_agent_sim_purchase_story", "tests/scenarios/test_snd.py:SndScenario.add_agent_holidays_story", "trumania/core/story.py:Story.transit_to_state", "trumania/core/story.py:Story.reset_timers", "trumania/core/story.py:Story.force_act_next"]}
{"id": "C144", "title": "Stories and circuses are set up as declared", "statement": "A new story has exactly the members of its population, all in state default, nobody forced, nobody scheduled without auto_reset_timer; in each state the k-th member has the k-th activity and the k-th probability given by the generators of that state. Stories are found by their name. set_operations gives a story the listed operations in order, followed by the return to the default state; append_operations adds at the end. The clock is seeded by the first seed of the master seed and the seeds asked from the circus are the following ones.", "quantifier": "all populations, generators, states, orders in which a dictionary is listed, numbers of seeds", "why_tests_cant": "Holds for every population size, set of states and dictionary order.", "anchors": ["trumania/core/story.py:Story.__init__", "trumania/core/story.py:Story.set_operations", "trumania/core/story.py:Story.append_operations", "trumania/core/circus.py:Circus.__init__", "trumania/core/circus.py:Circus.create_story", "trumania/core/circus.py:Circus.get_story", "trumania/core/circus.py:Circus.get_population_of"]}
{"id": "C145", "title": "The SND scenario never raises", "statement": "The scenario of distributors, dealers and agents runs to the end, however long and whatever calls force, reset, tick or move its members, provided that every distributor, dealer and agent has their attributes, that numbers of SIMs are whole, and that dealers buy from distributors of the population. Dealers without distributor, agents without dealer, out-of-stock dealers and distributors are all allowed. A dealer who buys from somebody outside the population of distributors makes the run raise.", "quantifier": "all circuses with the stories of the scenario, all histories of executions and calls, durations and folders", "why_tests_cant": "Whether a purchase or a restock raises depends on stocks, which depend on all random choices before.", "anchors": ["tests/scenarios/test_snd.py:SndScenario", "trumania/core/operations.py:Apply", "trumania/core/attribute.py:Attribute.AttributeOps.add", "trumania/core/relationship.py:Relationship.RelationshipOps.select_many", "trumania/core/story.py:Story.StoryOps.force_act_next", "trumania/core/circus.py:Circus.run"]}
{"id": "C146", "title": "The built-in profiles follow the calendar", "statement": "At every date, HighWeekDaysTimerGenerator weighs Monday to Friday 5 and the week-end 3; WorkHoursTimerGenerator(first, last) weighs 1 the hours first to last of Monday to Friday and 0 everything else; DefaultDailyTimerGenerator depends on the hour of the day only, weighs every hour from 6 to 23 more than twice any hour of the night, and none more than 20 h. Timers drawn from work hours end in work hours, except acts at once and in the last period of a cycle (C31).", "quantifier": "all dates, work hours, clock steps, dates of creation, numbers of ticks, draws", "why_tests_cant": "The calendar is unbounded and the profile is anchored at one Monday of 2016.", "anchors": ["trumania/components/time_patterns/profilers.py:HighWeekDaysTimerGenerator", "trumania/components/time_patterns/profilers.py:WorkHoursTimerGenerator", "trumania/components/time_patterns/profilers.py:DefaultDailyTimerGenerator"]}
{"id": "C147", "title": "Distributors restock what dealers bought", "statement": "In the SND scenario, the number of SIMs a distributor has to restock is at any time what it was plus what dealers are logged to have bought from it minus what it is logged to have restocked; it is never negative. A distributor from whom a dealer is logged to have bought restocks at the next execution of the restocks; each distributor who restocks is logged once, with the number it had to restock, receives exactly that many SIMs, and then has nothing to restock.", "quantifier": "all set-ups of the scenario, all histories, all runs", "why_tests_cant": "The books must balance after every history and for every order of the stories.", "anchors": ["tests/scenarios/test_snd.py:SndScenario.add_distributor_recharge_story", "tests/scenarios/test_snd.py:SndScenario.add_dealer_bulk_sim_purchase_story", "trumania/core/attribute.py:Attribute.AttributeOps.add", "trumania/core/story.py:Story.StoryOps.force_act_next"]}
{"id": "C148", "title": "The stocks of the distributors", "statement": "In the SND scenario, the number of SIMs a distributor has in stock is at any time at most what it was plus what the distributor is logged to have restocked, and at least that minus what dealers are logged to have bought from it; when at most one dealer buys from the distributor it is exactly the latter, and what is in stock plus what is to restock never changes.", "quantifier": "all set-ups of the scenario, all histories, all runs", "why_tests_cant": "Stocks depend on which requests met in the same step, over every history.", "anchors": ["tests/scenarios/test_snd.py:SndScenario.add_dealer_bulk_sim_purchase_story", "tests/scenarios/test_snd.py:SndScenario.add_distributor_recharge_story", "trumania/core/relationship.py:Relationship.select_many", "trumania/core/relationship.py:Relationship.RelationshipOps.select_many"]}
{"id": "C149", "title": "Moves and cell health in the CDR logs", "statement": "In the CDR scenario, each record of mobility_logs tells of a subscriber who acted at that time, with the cell where they then were and one of the cells possible for them, and each record of cell_status of a cell which broke down or was repaired then; at any time each subscriber is where the last record about them tells (or where they started), each cell is as healthy as the last record about it tells, and the records about a subscriber lead without a gap from the first cell to the current one; so do the files after a run.", "quantifier": "all set-ups of the scenario, all histories, all runs", "why_tests_cant": "The attribute at the end is compared with the whole log, for every history and every chance.", "anchors": ["tests/scenarios/test_cdr.py:CdrScenario.add_mobility", "trumania/components/geographies/uganda.py:WithUganda.add_uganda_geography", "trumania/core/attribute.py:Attribute.AttributeOps.update"]}
{"id": "C150", "title": "The population of the reviews", "statement": "A population that stories write to only by saving the rows they log has, after any history, exactly the members it had and those logged, with the values of their last records. So in the SND scenario the reviews population is told by the reviews log: each logged review is a member whose date, text, agent and agent name are those logged, none is lost and nothing else gets in; so do the files after a run.", "quantifier": "all set-ups of the scenario, all populations written to this way, all histories, all runs", "why_tests_cant": "The population at the end is compared with the whole log, for every history.", "anchors": ["tests/scenarios/test_snd.py:SndScenario.add_agent_reviews_stories", "trumania/core/population.py:Population.PopulationOps.update"]}
{"id": "C151", "title": "Records numbered by a sequential generator", "statement": "When stories draw from a sequential generator only to fill the id column of the records of one log, the ids of the records of that log, in the order they are written, are consecutive from the generator's counter on, hence all different, and the counter afterwards is that of the next record.", "quantifier": "all circuses, all histories, all runs", "why_tests_cant": "The ids are those of every story, execution and step together; tests look at one bulk.", "anchors": ["trumania/core/random_generators.py:SequencialGenerator.generate", "trumania/core/operations.py:FieldLogger.build_logs"]}
{"id": "C152", "title": "Stories without a timer act when told to, and only then", "statement": "A member of a story created without timer generator acts at an execution if and only if something told it to act since the last execution of that story: a call of force_act_next, or a row of another story's operations naming it whose condition holds. So in the CDR scenario a SIM card is topped up only after a call or a message was logged with its number since the last topups, and no number is topped up more often than it called and texted, in the files of any run; in the SND scenario a distributor restocks exactly when a sale of theirs was logged since the last restocks.", "quantifier": "all circuses, all stories without timer, all histories, all set-ups of the CDR and SND scenarios, all runs", "why_tests_cant": "Nothing else in any history, of any length, may wake such a story; a test sees a few steps.", "anchors": ["trumania/core/story.py:Story.force_act_next", "trumania/core/story.py:Story.__init__", "tests/scenarios/test_cdr.py:CdrScenario.add_topups"]}
{"id": "C153", "title": "The CDR scenario gives every subscriber SIM cards of different operators and every card a number of its own", "statement": "Whatever the seed, the number of subscribers and of agents: when the CDR scenario has created subscribers and SIM cards, every subscriber owns one to four cards, no two of the same operator; every card belongs to exactly one subscriber, has one of the four operators, 1000 on its main account and a number of the form 0032 + prefix + digits that no other card has; only agents are possible agents. It succeeds when there are enough numbers for four cards each and edges in the graph of agents, and raises when there are fewer numbers than subscribers.", "quantifier": "all seeds, random streams, sizes and graphs", "why_tests_cant": "Draws without replacement with weights may repeat a position and are drawn again; that this always ends with different operators, and that stacking and numbering keep owners apart, must hold for every stream and size.", "anchors": ["tests/scenarios/test_cdr.py:CdrScenario.create_subs_and_sims", "trumania/core/random_generators.py:MSISDNGenerator", "trumania/core/util_functions.py:make_random_bipartite_data"]}
{"id": "C154", "title": "The CDR scenario can be constructed and then runs to the end", "statement": "Whatever the seed, the parameters and what networkx and numpy draw: a CDR scenario that could be constructed has its six stories with their operations, members and states, and its populations, attributes and relationships are such that nothing that can happen makes it raise, provided that every subscriber has a possible cell and that the step of the clock is at least one second; when the random graphs leave nobody alone it runs to the end of any duration. The construction succeeds when there are enough numbers for four SIM cards per subscriber, edges in the random graphs, and the step of the clock divides the hour and the start date.", "quantifier": "all seeds, parameters, start dates, steps, graphs, drawn numbers, histories and durations", "why_tests_cant": "The scenario test runs one seed with one set of parameters.", "anchors": ["tests/scenarios/test_cdr.py:CdrScenario.__init__", "tests/scenarios/test_cdr.py:CdrScenario.create_subs_and_sims", "tests/scenarios/test_cdr.py:CdrScenario.add_mobility", "tests/scenarios/test_cdr.py:CdrScenario.add_topups", "tests/scenarios/test_cdr.py:CdrScenario.add_communications"]}
{"id": "C155", "title": "From the seed of the CDR scenario to its log files", "statement": "Whatever the seed, the parameters, the duration and what networkx and numpy draw, provided that the random graphs leave no subscriber without possible cell: once the CDR scenario is constructed and run, the balance of every SIM card is 1000 plus the topups of its number in the files minus its calls and messages in the files; no number is topped up more often than it called and texted; what each line of the five log files tells was true when it was written; every subscriber is where their last line in mobility_logs tells, and every cell as healthy as its last line in cell_status tells. Such simulations succeed when there are enough numbers, edges in the graphs, and a step that divides the hour and the start date.", "quantifier": "all seeds, parameters, start dates, steps, durations, graphs and drawn numbers", "why_tests_cant": "It joins the construction, every step of the run and the files that are left, for every seed and duration.", "anchors": ["tests/scenarios/test_cdr.py:CdrScenario", "trumania/core/circus.py:Circus.run"]}
{"id": "C156", "title": "The SND scenario can be constructed, and its broke dealer sells at most three SIMs", "statement": "Whatever the seed, the parameters and what networkx, numpy and Faker draw: if the constructor of the SND scenario returns, the circus has its six stories and the named populations, attributes and relationships; the SIMs of the distributors and of the dealers each have one owner; agents own none; the broke dealer is not a dealer and holds exactly three SIMs; every agent may buy from the broke dealer, otherwise only from dealers; every dealer has exactly one distributor; nothing is to restock; every dealer buys at least 500 SIMs at once. The constructor returns when every population and stock is nonempty, the random graph has edges, and the step divides the hour and the start date. Such a scenario never raises and runs to the end of any duration, and its purchases log then shows at most three successful sales of the broke dealer, which is what the scenario's own test asserts.", "quantifier": "all seeds, parameters, start dates, steps, durations, graphs and drawn numbers", "why_tests_cant": "The test runs one seed for 90 minutes; the constructor draws thousands of random numbers and random graphs.", "anchors": ["tests/scenarios/test_snd.py:SndScenario", "tests/scenarios/test_snd.py:test_snd_scenario", "trumania/core/circus.py:Circus.run"]}
{"id": "C157", "title": "From the seed of the SND scenario to its log files", "statement": "Whatever the seed, the parameters, the duration and what networkx, numpy and Faker draw: once the SND scenario is constructed and run, the agents own exactly the SIMs that the purchases file shows as sold to them; what each distributor has to restock is what dealers bought from it minus what it restocked, according to the files; the reviews of the population are exactly those of the reviews file, numbered consecutively from REVIEW_ID0000000000, with the attributes that the file tells; what each line of the five log files tells was true when it was written; the holidays file tells 'going' of agents whose turn it was to start holidays and 'returning' of agents whose turn it was to stop them. Such simulations succeed when every population and stock is nonempty, the random graph has edges, and the step divides the hour and the start date.", "quantifier": "all seeds, parameters, start dates, steps, durations, graphs and drawn numbers", "why_tests_cant": "It joins the construction, every step of the run and the files that are left, for every seed and duration.", "anchors": ["tests/scenarios/test_snd.py:SndScenario", "trumania/core/circus.py:Circus.run"]}
{"id": "C158", "title": "Holidays in the constructed SND scenario", "statement": "In the SND scenario as constructed (activity and probability of return are 0 for agents in the state on_holiday, and purchases reset their timers), after any history: the first sale to an agent who acts while on holidays is the last one, and no later line of the purchases file is about them.", "quantifier": "all seeds, parameters, start dates, steps, durations, histories before and after, graphs and drawn numbers", "why_tests_cant": "Absence of an event over every continuation, from every state the constructed scenario can reach.", "anchors": ["tests/scenarios/test_snd.py:SndScenario.add_agent_sim_purchase_story", "tests/scenarios/test_snd.py:SndScenario.add_agent_holidays_story"]}
