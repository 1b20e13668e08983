# Formal model of trumania in Rocq (Coq 8.16.1)

Source: `/repo` (python 3.9, pandas 1.4.0, numpy 1.22.0 as pinned by its Pipfile), read as text.
Nothing of it is executed. The model is a set of total, computable Gallina functions that mirror the
Python functions branch by branch; exceptions are values (`result A := Ok a | Err exn`).

Layout of `rocq/theories`:

* model: `Base Rng Utils Relationship Frame Gens Clock Attribute World Story Ops Fs Circus Helpers Components Persist`
  (each definition cites the file and lines it models);
* specification vocabulary, independent of the model's algorithms: `Spec*.v`;
* lemmas: `*Facts.v`, `*Props.v`, `*Kept.v`, `Persist*.v` and the like;
* sample objects for the examples: `Samples.v`, `StorySamples.v`, `PersistSamples.v`;
* the property theorems, named after the property (`Cnn_...`), one `Print Assumptions` below each, with an `Example`
  showing a concrete case that meets the hypotheses: `Prop*.v`.

## 1. Modelling choices

* **Cells** (`val`): NA, bool, exact rational, string, list. Python int/float are exact rationals: float
  rounding, overflow and dtype promotion are *not* modelled.
* **Dates / durations**: integers (nanoseconds). `strftime` is a function parameter.
* **DataFrames**: column names + list of (index label, cells). `pd.merge` on the index (left / inner),
  suffixing of clashing names, `concat`, boolean masks, `drop_duplicates`, `groupby`,
  `Index.union/difference`, `reindex`, `.loc` (KeyError on missing labels) are written out.
* **Randomness**: a `RandomState` is an arbitrary infinite tape of raw naturals plus a read position. Every theorem
  quantifies over all tapes, i.e. over all outcomes of all draws. `choice` (with/without `p`,
  with/without replacement), `permutation`, `uniform`, `randint` and `beta(1,b)` are functions of the tape obeying
  numpy's documented contract and argument checks. `RandomState(seed)` is `g seed` for an arbitrary family of tapes
  `g`: equal seeds give equal streams, nothing else is assumed.
* **Objects with identity** (stories, relationships, attributes, populations, generators, timer generators)
  live in one `world` record; operations refer to them by address, so aliasing between stories is modelled.
* **Operations** are a syntax tree (`op`); `run_op` is their interpreter. User functions given to `Apply`, `map`,
  triggers etc. are arbitrary Gallina functions.
* **Exceptions in the middle of a mutation**: the world monad returns the world as it is at the raise.
* **Histories**: `built g w` (SpecWorld.v) says that `w` is reached from a fresh circus by any sequence of the calls of the
  library (creations, updates, relations, story executions, clock increments, ...), in any order, failing ones included.
* **File system**: a tree of directories and files; CSV files are lists of records. Text formats of numbers, dates and
  durations are a parameter (`text_format`) with a few sanity hypotheses (`sane`); the type inference of `read_csv` is
  written out; quoting is not modelled.
* **Iteration order of `set`** (hash-seed dependent) and of `os.listdir` are explicit parameters where they can be
  observed.
* `Err Unmodelled` marks inputs outside the modelled domain; theorems claim nothing about them. `Err Diverges`
  is a loop that never terminates (proved to be so where it is used).

## 2. Plan per property

| id | modelled | proof |
|----|----------|-------|
| C01-C12 | `Story.v` (timers table, forced set, states, params), `Ops.v` (execute, ops) | invariants over executions; induction on histories of circus steps |
| C13-C18, C85-C87 | `Frame.v`, `Ops.v` (run_op, run_chain) | induction on the operation list / operation tree |
| C19-C25 | `Circus.v`, `Fs.v` | induction on steps, refinement to a list-of-emitted-rows spec, crash points = prefixes of the write sequence |
| C26-C35 | `Clock.v` | induction on increments; arithmetic over Q and Z; explicit divergence witness |
| C36-C51, C74 | `Relationship.v`, `Utils.v` | refinement to the multiset of (from,to,weight) triples (Permutation) |
| C52-C60, C88-C90 | `Attribute.v`, `World.v` | refinement to finite maps, invariants of `built` |
| C61-C66, C81-C84, C91 | `Gens.v`, `Utils.v` | string injectivity, history induction |
| C67, C68, C92-C94 | `Helpers.v`, Coq Reals | order reasoning, real analysis |
| C69-C73, C95-C97 | `Fs.v`, `Persist.v` | tree induction, round-trip laws |
| C98-C103 | `Rng.v`, `Relationship.v`, `Gens.v`, `Clock.v`, `Story.v`, `Ops.v`; vocabulary in `SpecRandom.v` | a random number is one of the 2^53 cells of [0, 1); the number that decides each outcome is named by its position in the stream, and the numbers leading to an outcome are counted |
| C104-C106 | `World.v`, `Ops.v`, `Story.v`, `Circus.v`; vocabulary in `SpecLocal.v` | the objects of a circus are addresses; each operation, story and call has a footprint of objects it may change or look at; a relational reading of the monad (two circuses agreeing on the footprint behave alike) is proved for every operation by induction on chains |
| C107, C108 | `Ops.v`, `Story.v`, `World.v`; vocabulary in `SpecAct.v` | the rows an operation names are described cell by cell (`targets`, `last_move`, `names_row`, `listed`); the lists the operations compute are shown to be these rows, then the story and attribute lemmas of C04, C05, C09, C52, C57 apply |
| C109 | `Rng.v`, `Relationship.v`, `Gens.v`, `Clock.v`, `Utils.v`; vocabulary in `SpecFresh.v` | `uses_up` is closed under sequencing; it is proved for every numpy method and lifted through the calls |
| C110 | `Clock.v`, `Story.v`; vocabulary in `SpecWait.v` | the timers a story draws lie below the bound, and a counter below it only goes down until its member acts |
| C111, C112 | `Geography.v` (with `World.v`, `Story.v`, `Clock.v`); vocabulary in `SpecGeography.v` | the construction is run symbolically, each call described by a forward lemma that also says when it raises |
| C113-C115 | `Geography.v`, `Story.v`, `Ops.v`; vocabulary in `SpecGeography.v` | an invariant of the two stories over histories: counters of cells that have broken down, generators and timers of known shape |
| C116 | as C113 | each operation of the two stories is shown not to raise from the invariant |
| C117-C119 | `Resample.v`: pandas' resample().pad(), NaN in sums and cumulated sums, numpy's binary search; vocabulary in `SpecResample.v` | exact shape of the resampled table, rotation invariant, termination of the alignment loop by counting bins, correctness of the binary search with its carried bounds; refinement to `Clock.v` |
| C120-C121 | no new code: the existing operations, relationships and generators; vocabulary in `SpecSupply.v` (what the rows of a story carry, which chains only make, buy and store) | one invariant per operation (`SupplyProps.v`: stocks + rows + lost = stocks before + rows before + made, as multisets), lifted through the chain, the execution, the history with failures; uniqueness from C61/C62 |
| C122 | `Reload.v`: load_all_logs, read_csv of a log file (type inference as in `Persist.v`) | log files from C20/C23, one frame per file by induction on the listing, exact columns from the round trip of a column |
| C123-C125 | `Namespace.v`: save_params_to_db, the namespace functions, load_timer_gen_config, the empirical generators' files | frame lemmas for the file system calls (what is apart from a path is untouched), congruence of load_from_db in what it reads |
| C126 | `Logger.v`: FieldLogger.__init__ with the lists in a heap | induction on the constructions |
| C127-C128 | no new code: selections with pop, additions, attribute operations and loggers; vocabulary in `SpecLedger.v` (books: a log with the column of the member and that of the item or amount) | one story: the operation and its log change stock and book alike (`LedgerProps.v`); induction on the history; then from logs to CSV files by C44 |
| C129 | `Describe.v`: description of circuses, populations and generators, json.dumps on dictionaries, texts, integers and views | direct |
| C130 | `SpecRecords.v`: what an operation promises of a row (`tells`), stories naming new columns (`builds_up`), records of logs and of CSV files | invariant: every row of the story data satisfies what the operations run so far tell; objects no story changes stay as they were; induction over histories; applied to examples/datacamp-blogpost/06-the-social-network.py |
| C131 | records with the past after which they were logged | C130, dates of the clock after a history |
| C132 | members acting during a history (`acted`) | the member column is unchanged by operations that keep every row; induction over histories |
| C133 | support of a generator (`can_give`) | induction over generators built on earlier ones; the definition of a generator never changes |
| C134 | `SpecSafe.v`: generators that never refuse, operations that do not raise on rows satisfying what was told before (`safe_on`), well-formed circuses, sensible calls | progress and preservation: every operation succeeds on the frames that can reach it and keeps the invariant (declared states, growing attributes with values of their kind, positive weights); induction over operations and histories |
| C135 | `SpecChains.v`: regroupings of lists of operations, stories and circuses | merging logs is associative with unit, so a chain does what its operations do; every primitive is blind to the operations stored in the stories; induction over operations, executions, runs |
| C136 | `SpecNow.v`: `tells_now`, `told_now`: what an operation tells relative to the state the execution started in | the invariant of C130 relative to the start of the execution, for the objects the operations run so far have not touched |
| C137 | `SpecJournal.v`: `journal_of`, `tells_before` | exec-wise effect of updates from the ledger framework (C127), the value before from C136, composition along the history |
| C138 | `Cdr.v`: the operations and functions of test_cdr.py; `SpecCdr.v`: circuses with its six stories, conditions on the data (`cdr_ready`) | the circus without chains (C135) is well formed (C134): what the operations before tell of a row gives that each one succeeds |
| C139 | `SpecCdrLogs.v`: what a call, message or topup record must tell (`a_call`, `a_message`, `a_topup`) | what is known of each row after each operation (C134), carried over regrouping (C135), then over histories and files (C112) |
| C140 | `SpecCdrLogs.v`: sums of the records of a number (`sum_of`) | each execution changes accounts by what it logs; induction on histories |
| C141 | `Snd.v`: the six stories of test_snd.py; `SpecSnd.v`: what each record must tell (`a_purchase`, `a_bulk_purchase`, `a_restock`, `a_holiday`, `a_review`) | what is known of each row after each operation (C134), carried over histories and files (C112) |
| C142 | `SpecSnd.v`: counting records (`of_whom`, `successful`, `sum_shown`) | each execution changes the stocks by what it logs (`booked`); induction on histories |
| C143 | `SpecHolidays.v`: being on holidays, histories where nobody touches the purchases timers | only purchases themselves reset or force their timers (`SelfForce.v`); a negative counter never becomes 0 (`stay_out`); after a successful purchase with activity 0 it is -1 (`holiday_exec`) |
| C144 | `SpecSetup.v`: values given by generators in turn, seeds of `seed_provider` | by following the calls of `new_story`; permutation of the states for the unknown order of the merged dictionary |
| C145 | `Snd.v`, `SpecSndReady.v` (`snd_ready`); C134's `safe_ops`, extended with accounts that only grow, accounts that a story settles, and updates of populations | `snd_well_formed`: each story is `safe_ops`; the counters stay whole numbers; then C134 |
| C146 | `SpecCalendar.v`: day of the week and hour of the day from the epoch (a Thursday) | arithmetic on quotients and remainders; C35 and C31 |
| C147 | `SpecSndRestock.v`: sums over the records | the counter is an account of two books (C123); generators with quantities give lists of these lengths; C04 for operations (`StoryForce.v`) |
| C148 | `SpecSndStock.v`: `one_client`; sums over the records (C147) | with pop, what disappears is what exactly one request of each seller was given (`RelationshipEach.v`, `OpEach.v`); invariant over histories (`SndStock.v`) |
| C149 | `SpecCdrMoves.v`: `a_move`, `a_status`, `last_shows`, `nothing_about` | the mobility and cell_status logs are journals (C137) of the CELL and HEALTH attributes (`CdrMoves.v`); truth of the records as in C139 |
| C150 | `SpecArchive.v`: `archive_of`, `saves`; `SpecSndReviews.v`: `reviews_kept`, `reviews_told`, `ids_reserved` | C59's effect of an update on members and values (`SavedFacts.v`) is the entry of a journal as in C137 (`ArchiveProps.v`); with C151, no review overwrites another |
| C151 | `SpecNumbers.v`: `numbered_by`, `ids_from` | induction over the history, one execution drawing as many ids as it logs records (`NumbersProps.v`) |
| C152 | `SpecPrompt.v`: `told`, `told_during`, `without_timer` | induction over the history: no other happening makes such a member ready (`PromptProps.v`); the CDR instance by the columns between the trigger and the logger (`CdrPrompt.v`), likewise the SND instance (`SndPrompt.v`) |
| C153 | `CdrSetup.v`: the construction of the scenario, numpy's weighted choice without replacement; `SpecCdrSetup.v`: `telephony` | each round of the choice finds a new position (`CdrChoice.v`); exact world after the construction, by steps (`CdrSubs.v`), then lists (`CdrSubsProps.v`) |
| C154 | `CdrSetup.v`; `SpecCdrSetup.v`: `sane_sources`, `nobody_alone`; `SpecCdr.v`: `cdr_circus`, `cdr_ready` | exact world after each step of the construction, or an exception only if a stated condition fails (`may`, `CdrBuild.v`); the last world meets `cdr_ready` (`CdrReady.v`); then C138 |
| C155 | `SpecCdrFiles.v`: `simulated`; C139, C140, C149, C152, C154 | the constructed scenario meets the hypotheses of the theorems on its logs |
| C156 | `SndSetup.v`: `build_snd`; `SpecSndSetup.v`: `supply_chain`, `feasible` | each step of the construction runs or its precondition fails (`may`, as for C154); its result meets `snd_circus` and `snd_ready`; C142, C145 |
| C157 | `SpecSndSetup.v`: `snd_simulated`; C141, C142, C147, C150, C151, C156 | the constructed scenario meets the hypotheses of the theorems on its logs |
| C158 | `SpecSndSetup.v`: `chain_holidays`; C143, C156 | the constructed story meets the hypotheses of C143; states stay declared by C134 |
| C75-C80 | `Utils.v`, `Components.v` | direct, induction on networkx's loop |

Properties that turn out false of the faithful model are proved false (`..._refuted`, concrete witness) together with the
strongest true variant; they are listed as findings in section 4. `MANIFEST.json` gives the theorems of each property.

## 3. Trusted base

* Coq 8.16.1's kernel (`coqc`, `vm_compute` included); no plugin, no axiom of our own, no kernel check switched off.
* The reading of the Python code and of the pandas/numpy behaviour it uses (section 1 and the comment on each
  definition). Nothing links the model to the Python code mechanically.
* Axioms. `Print Assumptions` says "Closed under the global context" for every property theorem except the following, which
  use the axioms of Coq's standard library for the real numbers:
  * `C67_numbers_are_ordered`, `C92_bounded_sigmoid`, `C92_beta_is_cdf`, `C92_beta_density`, `C92_symmetric`,
    `C92_shape_one_is_linear`: `ClassicalDedekindReals.sig_forall_dec`, `FunctionalExtensionality.functional_extensionality_dep`;
  * `C68_logistic_midpoint`: these and `ClassicalDedekindReals.sig_not_dec`;
  * `C68_logistic_range`, `C68_logistic_increasing`, `C68_logistic_decreasing`: these three and `Classical_Prop.classic`.
  `coqchk` further lists the module parameters of `Coq.Reals.Rdefinitions` (`RbaseSymbolsImpl`, `RinvImpl`) and of
  `Coq.ssr.ssrunder` (`Under_rel`) of the standard library, which are loaded but are not assumptions of the theorems.

### Modelled code

| file | modelled | not modelled |
|------|----------|--------------|
| core/util_functions.py | make_random_bipartite_data (given networkx's edges), assign_random_proportions, make_random_assign, merge_2_dicts, merge_dicts, df_concat, build_ids, cap_to_total, ensure_folder_exists, ensure_non_existing_dir, latest_date_before, load_all_logs (files with rows as long as the header, distinct column names) | setup_logging, log_dataframe_sample, is_sequence |
| core/relationship.py | all of Relations, Relationship and RelationshipOps | the ambiguity of `overridden_to_weights` given as a dict (AttributeError) |
| core/random_generators.py | seed_provider, Constant, FixedValues, Numpy (uniform, choice, any elementwise law), Pareto, Sequencial, MSISDN, Faker and MongoId (as oracles), map/flatmap, DependentTrigger, ConstantDependent, DependentBulk, the generate operations, save/load, description | the laws themselves beyond their support; fractional sizes |
| core/clock.py | Clock, timestamps, n_iterations, CyclicTimerGenerator and Profile, activity, save/load | `Clock.v`: a clock step that does not divide the profile step, off-grid starts (`Unmodelled`); these are in `Resample.v`, which leaves out negative weights, steps that are not positive, and a step of several days equal to the profile's off the grid |
| core/attribute.py | all | - |
| core/population.py | all, PopulationOps included, save/load, description | - |
| core/story.py | all | - |
| core/operations.py | Operation, Chain, FieldLogger, DropRow, Apply, AddColumns, bound_value, scale, logistic, bounded_sigmoid, copy_if, identity | FieldLogger's in-place extension of the list given as `cols` is modelled apart (`Logger.v`, C126): in circuses each logger has its own list |
| core/circus.py | construction, names, run, save_logs, save_to_db, load_from_db, load_population, load_generator, save_params_to_db, description, `__str__` | - |
| components/db.py | save/list/load of populations and generators, timer profiles, empirical generators, namespaces | absolute location of the folder |
| components/social_networks/erdos_renyi.py | all, with networkx's fast_gnp_random_graph | - |
| components/time_patterns/profilers.py | all | - |
| components/geographies/uganda.py | all, given the outputs of Faker and the laws beta(1,999), pareto(1.4), pareto(1.2) as functions of the raw draws; the branch loading from the data base raises before reading anything (finding 19) | logging |
| tests/scenarios/test_cdr.py | the six stories and the functions they apply (lines 22-103, 284-350, 426-592); the construction of the scenario (lines 111-592, `CdrSetup.v`), given what networkx and numpy's continuous laws return; theorems about runs assume what the construction must provide (`cdr_ready`), and C154 proves that it does. The order of a python set of strings is any order |
| tests/scenarios/test_snd.py | the six stories and the functions they apply (lines 103-126, 249-293, 329-370, 412-434, 470-492), `Snd.v`; the construction of the scenario (lines 38-492), `SndSetup.v`: C156 shows that it sets up what the theorems about the stories (C141-C150) assume; libraries outside the project (networkx, numpy's distributions, Faker, the order of python sets) are parameters | empty populations and stocks, the loading of the logs and the samples printed by the test (494-522) |
| components/geographies/random_geo.py | create_random_cells, which raises TypeError (finding 19) | - |

## 4. Findings

Each is a theorem of the model (name given) unless marked (r), which comes from reading the code.

1. `remove_relations` with an unknown "from" *adds* relations of weight 0 (`C37_remove_relations_refuted`).
2. `select_many` with pop with several requests to the same from only removes what the first one received: items given to the others stay in stock (`C47_select_many_pop_refuted`).
3. `select_one` with pop and without one_to_one gives the same relation to several requests (`C42_select_one_pop_refuted`); in a run, the log then shows an item sold twice (`C127_without_one_to_one_refuted`).
4. `relationship.ops.remove` raises AttributeError at its first row: there is no method `remove` (`C49_remove_never_works`).
5. A reloaded NumpyRandomGenerator restarts from seed 1234 whatever its saved state; the unit test meant to check it lacks the `test_` prefix, so pytest does not collect it (`C64_refuted`, `C64_restarts_from_1234`).
6. `create_relationship` checks duplicates with `is`, so a name is silently reused (`C58_name_reused_refuted`); seed=0 counts as no seed (`C90_seed_zero_refuted`).
7. `Population.update` does not update `size` (`C56_size_refuted`); stories do not know the new members (`C12_members_fixed`).
8. `Attribute.update` with a repeated id raises after having extended the table (`C53_repeated_ids_refuted`).
9. A `CyclicTimerGenerator` built within the last clock step of its cycle loops for ever (`C29_last_bin_diverges`); `latest_date_before` diverges for steps <= 0 unless it has nothing to do (`C33_non_positive_step_diverges`).
10. Stories may act in zero-weight bins (`C31_initial_timer_refuted`, `C31_zero_delay_refuted`).
11. Timer generation with repeated index labels raises or swaps timers when activities are on both sides of 2 (`C32_*_refuted`).
12. FieldLogger with exploded columns raises on empty data and loses columns when all lists are empty (`C18_empty_*_refuted`).
13. `copy_if` documents the wrong order of arguments (`C93_documented_order_refuted`); DropRow's docstring is the opposite of its behaviour (`C17_drop_row_keeps_false`).
14. A generator id with a dot, a saved timer profile, or no population make `load_from_db` raise (`C72_reload_refuted`); with a timer profile or an empirical generator in its namespace a circus is never loadable (`C124_unloadable_timer`, `C124_unloadable_empirical`).
15. `save_to_db(overwrite=True)` is not atomic: an unsupported generator raises after the old namespace is gone (`C73_not_atomic`).
16. With a clock step below one second random timestamps raise (`C26_subsecond_refuted`).
17. MSISDNs: the number made of nines is never given; repeated prefixes give repeated numbers (`C62_*`).
18. `select_one()` over all froms depends on the hash seed of the process (`C74_reproducible_refuted`).
19. `WithRandomGeo.create_random_cells` and `WithUganda.add_uganda_geography(force_build=False)` omit the `circus` argument: TypeError. `build_uganda_populations()` in its `__main__` too (`C112_default_refuted`, `C112_others_refuted`).
20. Log rows of loggers with different columns are appended unaligned below one header (`C23_refuted`).
21. `transit_to_state` accepts states that were never declared; later timer resets of the story raise KeyError (`C09_undeclared_state_refuted`).
22. Empty relationships cannot be reloaded; ids made of digits come back as numbers, "NA" as missing (`C70_empty_refuted`, `C70_ids_refuted`, `C71_ids_refuted`).
23. `make_random_bipartite_data` raises when networkx draws no edge (`C76_bipartite_no_edge_refuted`).
24. `ResetTimers` of a story inside its own operations is undone by the tick of inactive members or by the auto reset (`C11_own_reset_refuted`).
25. `SequencialGenerator.generate(-n)` moves the counter back: ids are then repeated (`C61_negative_size_refuted`).
26. (r) `overridden_to_weights` documented as a dict raises AttributeError.
27. (r) Forcing unknown ids raises but keeps them in the forced set (the model's `force_act_next` does the same; no theorem states it yet).
28. `activity(0)` raises ZeroDivisionError (`C34_zero_refuted`).
29. `population.ops.select_one` pairs ids and weights by position although the attribute may be in another order (`C60_misaligned_refuted`).
30. back-to-default only considers rows that survive to the end of the chain (`C10_dropped_row_refuted`).
31. select_all reorders rows with repeated keys and turns numeric ids into texts as soon as one id is a text (`C51_select_all_refuted`, `C39_get_relations_refuted`).
32. An attribute initialised from a relationship has no value for members without relations (`C89_isolated_member_refuted`).
33. An Erdos-Renyi network on an empty population raises ZeroDivisionError (`C78_empty_population`).
34. `save_empirical_discrete_generator` only bounds the total from above: a distribution of total 1/2 is saved and every use of the reloaded generator raises (`C97_check_refuted`).
35. Pareto generators with `force_int` and a fractional xmin give values below xmin (`C82_force_int_refuted`).
36. A relation of weight 0 is picked when it is the only one (`C44_single_relation_refuted`).
37. Every cell of the sample geography breaks down at least once a day, although the code says that most cells never do: `activity_gen` is a number of acts per cycle of 24 hours and is at least 5 (`C114_daily_break_down`).
38. (r) The healthy and the unhealthy levels of a cell follow the same law, beta(1, 999): break-downs and repairs do not differ in the log.
39. A clock step that does not divide the cycle of a profile shortens the cycle of its timers by the remainder, so they drift (a daily profile is repeated every 20 hours on a clock of 5 hours); weights of periods without a date of the clock's grid are not used (`C117_daily_cycle_refuted`, `C117_all_weights_used_refuted`).
40. On such a clock the endless loop of finding 9's kind covers more than the last step: the daily profile on a clock of 5 hours cannot be built between 15:00 and midnight; a clock step longer than the cycle raises IndexError (`C118_terminates_refuted`, `C118_long_step_refuted`).
41. A profile that starts off the clock's grid (and has another step than the clock) has NaN in its cumulated weights: its weights are ignored and members of activity above 2 act at every step (`C119_follows_profile_refuted`, `C119_weights_ignored`).
42. Items bought in bulk (`select_many(pop=True)`, as the dealers of tests/scenarios/test_snd.py do) are duplicated when two buyers name the same seller: the item is stored by the buyer and stays in the stock (`C121_bulk_purchase_refuted`; in the scenario itself, `C142_held_once_refuted`; the stock of the seller is then above what the logs tell, `C148_two_clients_refuted`). A negative quantity taken from the data moves the counter of SequencialGenerator back, so that it gives identifiers again (`C121_held_once_refuted`).
43. Logs do not come back from `load_all_logs` as they were written: a column of texts made of digits (MSISDNs with leading zeros) is read as numbers (`C122_refuted`); `C122_logs_reloaded` gives the exact condition.
44. `FieldLogger(cols=l, exploded_cols=e)` extends the caller's list `l`: other loggers given `l`, before or after, log or miss the columns `e` too (`C126_refuted`).
45. `str(circus)` raises TypeError as soon as the circus has a population: `description` holds the views `attributes.keys()` and `relationships.keys()`, which json cannot write (`C129_never_printed`, `C129_print_refuted`).
46. examples/datacamp-blogpost/06-the-social-network.py draws friendships at random: as soon as a person without any friend acts, the whole run stops with KeyError, since the receiver is missing and `lookup` asks the attribute for it (`C134_friendless_refuted`; `C134_hello_world` shows that nothing else can go wrong).
47. tests/scenarios/test_cdr.py draws the possible cells of subscribers at random (257-260): a subscriber left without any makes the run stop with KeyError (`C138_cellless_refuted`). Also, `list(common_operators)[0]` (do_select) depends on the order of a set of strings, which changes from process to process: runs with the same seeds need not give the same CDRs. And dropped calls are charged like others (`C138_example` shows dropped calls; VALUE does not depend on STATUS).
48. Holidays in tests/scenarios/test_snd.py (314-324, 412-434): `transit_to_state` changes the state of an agent, not their timer, so agents on holidays still purchase when their timer ends (`C143_no_purchase_on_holidays_refuted`). That purchase then sets their timer to -1, since their activity is 0, and coming back from holidays does not reset it: they never purchase again (`C143_last_purchase`, `C143_buys_again_refuted`).
49. In tests/scenarios/test_snd.py the run raises KeyError when a dealer is related to a distributor which is not a member of the population of distributors (`C145_stranger_refuted`): the bulk purchase adds to an attribute that has no value for it.
