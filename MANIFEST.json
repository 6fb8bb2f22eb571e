{
 "claims": [
  {
   "property": "C01",
   "status": "proved",
   "theorems": [
    "C01_insert_is_moving_average"
   ],
   "note": "all histories; NaN-free features"
  },
  {
   "property": "C02",
   "status": "proved",
   "theorems": [
    "C02_one_sorted_entry_per_key"
   ],
   "note": "all histories of insert, merge, clear"
  },
  {
   "property": "C03",
   "status": "proved",
   "theorems": [
    "C03_moving_average_in_range",
    "C03_unrestricted_refuted"
   ],
   "note": "range claim plus witness that the lower bound is needed"
  },
  {
   "property": "C04",
   "status": "proved",
   "theorems": [
    "C04_best_policy_minimises"
   ],
   "note": ""
  },
  {
   "property": "C05",
   "status": "proved",
   "theorems": [
    "C05_nan_metric_hides_better_policy"
   ],
   "note": ""
  },
  {
   "property": "C06",
   "status": "proved",
   "theorems": [
    "C06_merge",
    "C06_merge_self"
   ],
   "note": ""
  },
  {
   "property": "C07",
   "status": "proved",
   "theorems": [
    "C07_next_token"
   ],
   "note": ""
  },
  {
   "property": "C08",
   "status": "proved",
   "theorems": [
    "C08_token_buffer"
   ],
   "note": "complete classification of the outcomes of getNextToken"
  },
  {
   "property": "C09",
   "status": "proved",
   "theorems": [
    "C09_store_load",
    "C09_store_load_identical",
    "C09_integers_survive"
   ],
   "note": "normal range; at most 2^31 records, policies are C++ ints"
  },
  {
   "property": "C10",
   "status": "proved",
   "theorems": [
    "C10_two_features_cannot_reload"
   ],
   "note": "throws instead of aborting only when some number is below the normal range"
  },
  {
   "property": "C11",
   "status": "proved",
   "theorems": [
    "C11_python_layout_loads",
    "C11_feature_literals",
    "C11_metric_literals"
   ],
   "note": ""
  },
  {
   "property": "C12",
   "status": "proved",
   "theorems": [
    "C12_reload_merges_keys"
   ],
   "note": "witness"
  },
  {
   "property": "C13",
   "status": "proved",
   "theorems": [
    "C13_truncated_never_loads"
   ],
   "note": "every dataset, reachable or not"
  },
  {
   "property": "C14",
   "status": "proved",
   "theorems": [
    "C14_string_parses_to_name_and_parameters"
   ],
   "note": "the parameters must be accepted ones; others abort (C15)"
  },
  {
   "property": "C15",
   "status": "proved",
   "theorems": [
    "C15_accepted_iff_documented",
    "C15_items_accepted_iff_documented"
   ],
   "note": ""
  },
  {
   "property": "C16",
   "status": "proved",
   "theorems": [
    "C16_static_constant",
    "C16_static_default"
   ],
   "note": ""
  },
  {
   "property": "C17",
   "status": "proved",
   "theorems": [
    "C17_round_robin_cycles",
    "C17_round_robin_fair"
   ],
   "note": ""
  },
  {
   "property": "C38",
   "status": "proved",
   "theorems": [
    "C38_started_iff_consistent",
    "C38_otherwise_stops"
   ],
   "note": ""
  },
  {
   "property": "C49",
   "status": "proved",
   "theorems": [
    "C49_optimal_replays"
   ],
   "note": ""
  },
  {
   "property": "C50",
   "status": "proved",
   "theorems": [
    "C50_dataset_map"
   ],
   "note": ""
  },
  {
   "property": "C20",
   "status": "proved",
   "theorems": [
    "C20_depth_and_partition"
   ],
   "note": "every admissible sort"
  },
  {
   "property": "C21",
   "status": "proved",
   "theorems": [
    "C21_training_succeeds",
    "C21_inconsistent_refuted"
   ],
   "note": "2^24 samples and 1024 classes; the second theorem shows the consistency hypothesis is needed"
  },
  {
   "property": "C22",
   "status": "proved",
   "theorems": [
    "C22_constant_prediction"
   ],
   "note": ""
  },
  {
   "property": "C24",
   "status": "proved",
   "theorems": [
    "C24_threshold_between",
    "C24_threshold_separates",
    "C24_left_sample_misrouted",
    "C24_right_sample_misrouted"
   ],
   "note": ""
  },
  {
   "property": "C25",
   "status": "proved",
   "theorems": [
    "C25_save_load",
    "C25_predictions",
    "C25_trained_trees"
   ],
   "note": ""
  },
  {
   "property": "C26",
   "status": "proved",
   "theorems": [
    "C26_threshold_rounding"
   ],
   "note": "witness: a tree loaded from a file, saved and loaded again"
  },
  {
   "property": "C52",
   "status": "proved",
   "theorems": [
    "C52_generated_code_agrees",
    "C52_trained_complete",
    "C52_rounded_threshold_refuted",
    "C52_left_only_falls_off",
    "C52_right_only_malformed"
   ],
   "note": ""
  },
  {
   "property": "C59",
   "status": "proved",
   "theorems": [
    "C59_trained_trees_save"
   ],
   "note": ""
  },
  {
   "property": "C27",
   "status": "proved",
   "theorems": [
    "C27_plurality"
   ],
   "note": ""
  },
  {
   "property": "C28",
   "status": "proved",
   "theorems": [
    "C28_training_deterministic",
    "C28_same_trees_same_predictions",
    "C28_training_succeeds",
    "C28_trained_forests",
    "C28_save_load",
    "C28_predictions"
   ],
   "note": "the random generator is any function of the range and the draw number"
  },
  {
   "property": "C29",
   "status": "proved",
   "theorems": [
    "C29_retrained_rejected"
   ],
   "note": "for forests whose numbers are in the range the text format can carry"
  },
  {
   "property": "C42",
   "status": "proved",
   "theorems": [
    "C42_outputs_are_a_distribution"
   ],
   "note": "the outputs are the plain softmax of the logits, so the row maximum does not matter"
  },
  {
   "property": "C43",
   "status": "proved",
   "theorems": [
    "C43_policy_gradient"
   ],
   "note": ""
  },
  {
   "property": "C44",
   "status": "proved",
   "theorems": [
    "C44_baseline_is_a_weighted_average",
    "C44_baseline_between"
   ],
   "note": ""
  },
  {
   "property": "C45",
   "status": "proved",
   "theorems": [
    "C45_cache_is_unobservable"
   ],
   "note": "any number type, any sampling function; cache empty at the start, as in a new or freshly loaded object"
  },
  {
   "property": "C46",
   "status": "proved",
   "theorems": [
    "C46_load_keeps_the_cache",
    "C46_stale_probabilities"
   ],
   "note": "the witness holds for every std::exp with exp(0)=1 and exp(-1) in [1/4,1/2]"
  },
  {
   "property": "C47",
   "status": "proved",
   "theorems": [
    "C47_encoding_injective",
    "C47_other_values_undefined"
   ],
   "note": ""
  },
  {
   "property": "C48",
   "status": "proved",
   "theorems": [
    "C48_store_load"
   ],
   "note": "NaN payloads are not modelled"
  },
  {
   "property": "C60",
   "status": "proved",
   "theorems": [
    "C60_feature_count_unchecked"
   ],
   "note": ""
  },
  {
   "property": "C61",
   "status": "proved",
   "theorems": [
    "C61_threshold_above_one_never_learns"
   ],
   "note": ""
  },
  {
   "property": "C62",
   "status": "proved",
   "theorems": [
    "C62_first_step"
   ],
   "note": ""
  },
  {
   "property": "C63",
   "status": "proved",
   "theorems": [
    "C63_within_arrays"
   ],
   "note": ""
  },
  {
   "property": "C64",
   "status": "proved",
   "theorems": [
    "C64_training_is_adam",
    "C64_what_is_learnt"
   ],
   "note": ""
  },
  {
   "property": "C30",
   "status": "proved",
   "theorems": [
    "C30_recorded_exactly_once",
    "C30_context_free_calls",
    "C30_shutdown_destroys"
   ],
   "note": "calls naming their context; the second theorem reduces the others to these"
  },
  {
   "property": "C31",
   "status": "proved",
   "theorems": [
    "C31_client_data",
    "C31_calls_defined"
   ],
   "note": "k counts the executions that ended while the data was kept: trainability never comes back, so they are the first ones"
  },
  {
   "property": "C32",
   "status": "proved",
   "theorems": [
    "C32_stale_policy_recorded"
   ],
   "note": "for every history: the policy last chosen for the synchronous context before the calls that choose none"
  },
  {
   "property": "C33",
   "status": "proved",
   "theorems": [
    "C33_current_context_lost",
    "C33_train_breaks_execution_in_flight",
    "C33_nested_executions"
   ],
   "note": "universal form and two witnesses"
  },
  {
   "property": "C34",
   "status": "proved",
   "theorems": [
    "C34_end_trains",
    "C34_collected_trains"
   ],
   "note": ""
  },
  {
   "property": "C35",
   "status": "proved",
   "theorems": [
    "C35_begin_index",
    "C35_index_overflows",
    "C35_report"
   ],
   "note": "the execution count is in C30_recorded_exactly_once"
  },
  {
   "property": "C36",
   "status": "proved",
   "theorems": [
    "C36_registry",
    "C36_not_trained_not_persisted",
    "C36_first_unaffected"
   ],
   "note": ""
  },
  {
   "property": "C37",
   "status": "proved",
   "theorems": [
    "C37_period_off",
    "C37_dangling_registration",
    "C37_use_after_free"
   ],
   "note": ""
  },
  {
   "property": "C51",
   "status": "proved",
   "theorems": [
    "C51_same_file",
    "C51_stored_then_loaded"
   ],
   "note": ""
  },
  {
   "property": "C18",
   "status": "proved",
   "theorems": [
    "C18_policies_in_range"
   ],
   "note": "C66 shows that the single-model setting breaks the claim"
  },
  {
   "property": "C19",
   "status": "proved",
   "theorems": [
    "C19_starts_exploring",
    "C19_explores",
    "C19_training_ends_exploration",
    "C19_exploits"
   ],
   "note": "from any state, not only reachable ones"
  },
  {
   "property": "C23",
   "status": "proved",
   "theorems": [
    "C23_one_answer",
    "C23_not_fastest"
   ],
   "note": ""
  },
  {
   "property": "C66",
   "status": "proved",
   "theorems": [
    "C66_trains_on_all",
    "C66_out_of_range",
    "C66_assertion_fails"
   ],
   "note": "universal form and two witnesses"
  },
  {
   "property": "C65",
   "status": "proved",
   "theorems": [
    "C65_trace"
   ],
   "note": ""
  },
  {
   "property": "C58",
   "status": "proved",
   "theorems": [
    "C58_sample_order_irrelevant"
   ],
   "note": ""
  },
  {
   "property": "C56",
   "status": "proved",
   "theorems": [
    "C56_load_terminates"
   ],
   "note": ""
  },
  {
   "property": "C57",
   "status": "proved",
   "theorems": [
    "C57_subnormal_cannot_reload"
   ],
   "note": "witness"
  },
  {
   "property": "C53",
   "status": "proved",
   "theorems": [
    "C53_choices",
    "C53_requests"
   ],
   "note": "problems whose product of sizes fits in an int"
  },
  {
   "property": "C54",
   "status": "proved",
   "theorems": [
    "C54_closed_lower",
    "C54_open_lower"
   ],
   "note": "bounds away from the ends of int64, where the code overflows"
  },
  {
   "property": "C55",
   "status": "proved",
   "theorems": [
    "C55_known_aborts",
    "C55_flush_stores",
    "C55_later_run_aborts"
   ],
   "note": ""
  },
  {
   "property": "C67",
   "status": "proved",
   "theorems": [
    "C67_runs"
   ],
   "note": ""
  },
  {
   "property": "C68",
   "status": "proved",
   "theorems": [
    "C68_flush_trains"
   ],
   "note": ""
  },
  {
   "property": "C69",
   "status": "proved",
   "theorems": [
    "C69_measured"
   ],
   "note": ""
  },
  {
   "property": "C70",
   "status": "proved",
   "theorems": [
    "C70_settings",
    "C70_all_options_or_undefined",
    "C70_options_without_effect",
    "C70_flush_rate"
   ],
   "note": ""
  },
  {
   "property": "C71",
   "status": "proved",
   "theorems": [
    "C71_static_policy",
    "C71_first_candidates"
   ],
   "note": ""
  },
  {
   "property": "C72",
   "status": "proved",
   "theorems": [
    "C72_no_candidates",
    "C72_empty_declaration",
    "C72_offers_nothing",
    "C72_too_many",
    "C72_long_name"
   ],
   "note": ""
  },
  {
   "property": "C73",
   "status": "proved",
   "theorems": [
    "C73_flush_zero"
   ],
   "note": ""
  },
  {
   "property": "C74",
   "status": "proved",
   "theorems": [
    "C74_flush_undefined"
   ],
   "note": ""
  },
  {
   "property": "C75",
   "status": "proved",
   "theorems": [
    "C75_continuous",
    "C75_steps"
   ],
   "note": ""
  },
  {
   "property": "C76",
   "status": "proved",
   "theorems": [
    "C76_only_own_files",
    "C76_names"
   ],
   "note": ""
  },
  {
   "property": "C77",
   "status": "proved",
   "theorems": [
    "C77_best_policies",
    "C77_policies"
   ],
   "note": ""
  },
  {
   "property": "C39",
   "status": "proved",
   "theorems": [
    "C39_packing_round_trips"
   ],
   "note": ""
  },
  {
   "property": "C40",
   "status": "proved",
   "theorems": [
    "C40_gather_merges",
    "C40_gather_returns"
   ],
   "note": "every reachable job"
  },
  {
   "property": "C41",
   "status": "proved",
   "theorems": [
    "C41_ranks_disagree"
   ],
   "note": "witness"
  },
  {
   "property": "C78",
   "status": "proved",
   "theorems": [
    "C78_buffers_filled",
    "C78_feature_count",
    "C78_over_estimate"
   ],
   "note": ""
  },
  {
   "property": "C79",
   "status": "proved",
   "theorems": [
    "C79_two_ranks_agree"
   ],
   "note": ""
  },
  {
   "property": "C80",
   "status": "proved",
   "theorems": [
    "C80_gathered_in_range"
   ],
   "note": ""
  },
  {
   "property": "C81",
   "status": "proved",
   "theorems": [
    "C81_policy_of_another_rank"
   ],
   "note": "witness"
  },
  {
   "property": "C82",
   "status": "proved",
   "theorems": [
    "C82_pending_not_shared"
   ],
   "note": "witness"
  },
  {
   "property": "C83",
   "status": "proved",
   "theorems": [
    "C83_safe"
   ],
   "note": ""
  },
  {
   "property": "C84",
   "status": "proved",
   "theorems": [
    "C84_saved",
    "C84_destroyed",
    "C84_reloaded",
    "C84_two_features"
   ],
   "note": ""
  },
  {
   "property": "C85",
   "status": "proved",
   "theorems": [
    "C85_fails",
    "C85_defaults"
   ],
   "note": ""
  },
  {
   "property": "C86",
   "status": "proved",
   "theorems": [
    "C86_trace",
    "C86_returns",
    "C86_undefined"
   ],
   "note": ""
  },
  {
   "property": "C87",
   "status": "proved",
   "theorems": [
    "C87_fences",
    "C87_unfenced",
    "C87_exploring_unfenced"
   ],
   "note": "the last is a witness"
  },
  {
   "property": "C88",
   "status": "proved",
   "theorems": [
    "C88_documented_models",
    "C88_default_model",
    "C88_not_a_number"
   ],
   "note": ""
  },
  {
   "property": "C89",
   "status": "proved",
   "theorems": [
    "C89_measured_only",
    "C89_no_trees"
   ],
   "note": ""
  },
  {
   "property": "C90",
   "status": "proved",
   "theorems": [
    "C90_loop_never_tunes"
   ],
   "note": ""
  },
  {
   "property": "C91",
   "status": "proved",
   "theorems": [
    "C91_policy_trace",
    "C91_train_report",
    "C91_train_all_report",
    "C91_end_report",
    "C91_collected_report"
   ],
   "note": "Apollo::train is covered when there are no pending executions or they are not collected; training all regions with one merged model writes no report."
  },
  {
   "property": "C92",
   "status": "proved",
   "theorems": [
    "C92_c_client",
    "C92_same_as_contexts",
    "C92_never_pending",
    "C92_outside",
    "C92_train"
   ],
   "note": "The C functions are modelled as the member calls they make; the standard output is not modelled."
  },
  {
   "property": "C93",
   "status": "proved",
   "theorems": [
    "C93_training",
    "C93_mixed_lengths",
    "C93_life"
   ],
   "note": "OpenCV is a parameter of the model (a record of its create, load, train, predict and save functions)."
  },
  {
   "property": "C94",
   "status": "proved",
   "theorems": [
    "C94_load_dropped",
    "C94_stored_and_lost"
   ],
   "note": "OpenCV is a parameter of the model (a record of its create, load, train, predict and save functions). Assumes DTrees::load and RTrees::load are the static functions the constructors use."
  },
  {
   "property": "C95",
   "status": "proved",
   "theorems": [
    "C95_times_not_given",
    "C95_same_times"
   ],
   "note": "OpenCV is a parameter of the model (a record of its create, load, train, predict and save functions)."
  },
  {
   "property": "C96",
   "status": "proved",
   "theorems": [
    "C96_two_ways",
    "C96_no_file",
    "C96_others"
   ],
   "note": ""
  },
  {
   "property": "C97",
   "status": "proved",
   "theorems": [
    "C97_any_policies",
    "C97_out_of_range",
    "C97_forest_checked"
   ],
   "note": ""
  },
  {
   "property": "C98",
   "status": "proved",
   "theorems": [
    "C98_best_split",
    "C98_forest"
   ],
   "note": ""
  },
  {
   "property": "C99",
   "status": "proved",
   "theorems": [
    "C99_benchmark_undefined",
    "C99_benchmark_completes",
    "C99_no_training_data",
    "C99_refused"
   ],
   "note": ""
  },
  {
   "property": "C100",
   "status": "proved",
   "theorems": [
    "C100_late_end",
    "C100_early_end",
    "C100_other_ends",
    "C100_programs_complete",
    "C100_programs_undefined"
   ],
   "note": ""
  },
  {
   "property": "C101",
   "status": "proved",
   "theorems": [
    "C101_tree_terminates",
    "C101_forest_terminates",
    "C101_tree_trailing",
    "C101_forest_trailing",
    "C101_truncated_tree",
    "C101_truncated_forest"
   ],
   "note": ""
  },
  {
   "property": "C102",
   "status": "proved",
   "theorems": [
    "C102_only_last_class",
    "C102_classes_found"
   ],
   "note": ""
  },
  {
   "property": "C103",
   "status": "proved",
   "theorems": [
    "C103_float",
    "C103_double",
    "C103_words",
    "C103_only_floats",
    "C103_only_doubles",
    "C103_int",
    "C103_unsigned",
    "C103_only_ints",
    "C103_only_unsigned"
   ],
   "note": ""
  },
  {
   "property": "C104",
   "status": "proved",
   "theorems": [
    "C104_every_job_halts",
    "C104_order_does_not_matter"
   ],
   "note": ""
  },
  {
   "property": "C105",
   "status": "proved",
   "theorems": [
    "C105_deadlock",
    "C105_few",
    "C105_many"
   ],
   "note": ""
  },
  {
   "property": "C106",
   "status": "proved",
   "theorems": [
    "C106_equal_counts_refuted"
   ],
   "note": "The code violates the claim for all jobs; the theorem refutes it with a witness."
  },
  {
   "property": "C107",
   "status": "proved",
   "theorems": [
    "C107_rank_by_itself"
   ],
   "note": ""
  },
  {
   "property": "C108",
   "status": "proved",
   "theorems": [
    "C108_events_decide"
   ],
   "note": ""
  },
  {
   "property": "C109",
   "status": "proved",
   "theorems": [
    "C109_time",
    "C109_days",
    "C109_client",
    "C109_longer_can_be_less"
   ],
   "note": ""
  },
  {
   "property": "C110",
   "status": "proved",
   "theorems": [
    "C110_region_train_throws",
    "C110_region_train",
    "C110_train",
    "C110_end"
   ],
   "note": ""
  },
  {
   "property": "C111",
   "status": "proved",
   "theorems": [
    "C111_train_needs_data"
   ],
   "note": ""
  },
  {
   "property": "C112",
   "status": "proved",
   "theorems": [
    "C112_pending_left"
   ],
   "note": ""
  },
  {
   "property": "C113",
   "status": "proved",
   "theorems": [
    "C113_completes",
    "C113_static"
   ],
   "note": ""
  },
  {
   "property": "C114",
   "status": "proved",
   "theorems": [
    "C114_one_answer",
    "C114_fails"
   ],
   "note": ""
  },
  {
   "property": "C115",
   "status": "proved",
   "theorems": [
    "C115_votes",
    "C115_smallest",
    "C115_one_answer"
   ],
   "note": ""
  },
  {
   "property": "C116",
   "status": "proved",
   "theorems": [
    "C116_kept",
    "C116_first",
    "C116_load_dataset"
   ],
   "note": ""
  },
  {
   "property": "C117",
   "status": "proved",
   "theorems": [
    "C117_trained_twice"
   ],
   "note": ""
  },
  {
   "property": "C118",
   "status": "proved",
   "theorems": [
    "C118_step",
    "C118_default",
    "C118_uses"
   ],
   "note": ""
  },
  {
   "property": "C119",
   "status": "proved",
   "theorems": [
    "C119_accurate",
    "C119_order",
    "C119_runs"
   ],
   "note": ""
  },
  {
   "property": "C120",
   "status": "proved",
   "theorems": [
    "C120_tries",
    "C120_knows_and_loses"
   ],
   "note": ""
  },
  {
   "property": "C121",
   "status": "proved",
   "theorems": [
    "C121_always_faster",
    "C121_times",
    "C121_one_slow"
   ],
   "note": ""
  },
  {
   "property": "C122",
   "status": "proved",
   "theorems": [
    "C122_trained_when",
    "C122_never"
   ],
   "note": ""
  },
  {
   "property": "C123",
   "status": "proved",
   "theorems": [
    "C123_moved",
    "C123_second_end"
   ],
   "note": ""
  },
  {
   "property": "C124",
   "status": "proved",
   "theorems": [
    "C124_misfit",
    "C124_empty_features",
    "C124_nested_kokkos"
   ],
   "note": "The bound on the number of samples times classes keeps the computed impurity away from 0; C124_nested_kokkos is a witness."
  },
  {
   "property": "C125",
   "status": "proved",
   "theorems": [
    "C125_in_turn",
    "C125_static_never_explores",
    "C125_stops",
    "C125_network_untrained",
    "C125_unknown"
   ],
   "note": "For the model strings a region or the environment gives; answers are those of the calls naming the region."
  },
  {
   "property": "C126",
   "status": "proved",
   "theorems": [
    "C126_equal_times",
    "C126_two_times"
   ],
   "note": "Over the real numbers; the rounded network is not covered."
  },
  {
   "property": "C127",
   "status": "proved",
   "theorems": [
    "C127_distribution",
    "C127_otherwise_nan"
   ],
   "note": "In binary64; what is asked of std::exp is the record decent_exp."
  },
  {
   "property": "C128",
   "status": "proved",
   "theorems": [
    "C128_poisoned"
   ],
   "note": "In binary64; of std::exp only that it is NaN at NaN. What discrete_distribution does with weights that are NaN is not modelled: the draw is a parameter."
  },
  {
   "property": "C129",
   "status": "proved",
   "theorems": [
    "C129_unseen_bits",
    "C129_even_odds"
   ],
   "note": "Unseen bits over the real numbers; even odds in binary64."
  },
  {
   "property": "C130",
   "status": "proved",
   "theorems": [
    "C130_undefined",
    "C130_answers",
    "C130_nothing_else",
    "C130_enough",
    "C130_forest",
    "C130_region",
    "C130_stored"
   ],
   "note": "The way through a tree is specified as a relation. Storing and loading is a witness."
  },
  {
   "property": "C131",
   "status": "proved",
   "theorems": [
    "C131_long",
    "C131_overflow"
   ],
   "note": "exp and pow are parameters with the assumptions stated."
  },
  {
   "property": "C132",
   "status": "proved",
   "theorems": [
    "C132_faithful",
    "C132_displaced",
    "C132_spoiled",
    "C132_directories"
   ],
   "note": "pandas is modelled by tables of texts; the texts read are those C65 proves the runtime writes."
  },
  {
   "property": "C133",
   "status": "proved",
   "theorems": [
    "C133_mean",
    "C133_min",
    "C133_mean_min",
    "C133_agree",
    "C133_differ"
   ],
   "note": "Rows as numbers; the mean is a parameter."
  },
  {
   "property": "C134",
   "status": "proved",
   "theorems": [
    "C134_regions_only",
    "C134_global_first",
    "C134_global_dies",
    "C134_global_before"
   ],
   "note": "The loop over regions without aggregation; the error does not depend on the aggregation."
  },
  {
   "property": "C135",
   "status": "proved",
   "theorems": [
    "C135_dies",
    "C135_draws",
    "C135_picture"
   ],
   "note": "Statements written, with labels as given texts; the order of stored nodes is that of OpenCV."
  },
  {
   "property": "C136",
   "status": "proved",
   "theorems": [
    "C136_tree",
    "C136_forest",
    "C136_complete"
   ],
   "note": "Statements written, with labels as given texts."
  },
  {
   "property": "C137",
   "status": "proved",
   "theorems": [
    "C137_written",
    "C137_files",
    "C137_replayed"
   ],
   "note": "Rows as numbers; the order of rows with equal times is arbitrary."
  },
  {
   "property": "C138",
   "status": "proved",
   "theorems": [
    "C138_runtime",
    "C138_names",
    "C138_read",
    "C138_default",
    "C138_policy",
    "C138_whole"
   ],
   "note": "Sums as floating-point sums in some order of the times; how pandas reads a number is arbitrary."
  },
  {
   "property": "C139",
   "status": "proved",
   "theorems": [
    "C139_optimum",
    "C139_below_optimum"
   ],
   "note": "The first part without rounding; the second is a witness with regions of two and one policies."
  },
  {
   "property": "C140",
   "status": "proved",
   "theorems": [
    "C140_own",
    "C140_shared",
    "C140_overwritten",
    "C140_others"
   ],
   "note": "Opening a file succeeds; files of different names are different; a write hands over any number of bytes of a buffer."
  },
  {
   "property": "C141",
   "status": "proved",
   "theorems": [
    "C141_inside",
    "C141_outside",
    "C141_above",
    "C141_below"
   ],
   "note": "Over any arithmetic; an element never written holds some number; the index is computed without overflow. NetM has every policy outside its row undefined."
  },
  {
   "property": "C142",
   "status": "proved",
   "theorems": [
    "C142_bars",
    "C142_counted",
    "C142_unit",
    "C142_overwritten",
    "C142_directory",
    "C142_no_features"
   ],
   "note": "For 0 < ntraining less than the number of executions (more than one with --drop-first); what seaborn draws (sorted containers of sorted bars) and how numpy averages and prints are assumed resp. left open."
  },
  {
   "property": "C143",
   "status": "proved",
   "theorems": [
    "C143_second_explores"
   ],
   "note": "Models DecisionTree and RandomForest; starts_fresh (nothing loaded), no_periods. A second problem met only after the first was stored fails instead (C55)."
  },
  {
   "property": "C144",
   "status": "proved",
   "theorems": [
    "C144_runtime",
    "C144_read",
    "C144_times",
    "C144_accuracy"
   ],
   "note": "Accuracy where one policy is fastest for each execution; the histograms are not modelled."
  },
  {
   "property": "C145",
   "status": "proved",
   "theorems": [
    "C145_relaxed",
    "C145_whole"
   ],
   "note": "Numbers are read with an arbitrary reading. For times that are not whole, C145_relaxed leaves open on which side rounding falls between 9.99999 and 10.00001 per cent."
  },
  {
   "property": "C146",
   "status": "proved",
   "theorems": [
    "C146_runtime",
    "C146_text",
    "C146_exhaustive",
    "C146_loaded",
    "C146_throws"
   ],
   "note": "The percentage itself (0/0) is not modelled, only the two counts."
  },
  {
   "property": "C147",
   "status": "proved",
   "theorems": [
    "C147_accurate",
    "C147_ties"
   ],
   "note": "That an Optimal model answers in the order of its file is C137; C147_ties is a witness."
  },
  {
   "property": "C148",
   "status": "proved",
   "theorems": [
    "C148_optimal",
    "C148_missing",
    "C148_fastest",
    "C148_turns",
    "C148_static"
   ],
   "note": "For regions created without a file of a model and without APOLLO_PERSISTENT_DATASETS."
  },
  {
   "property": "C149",
   "status": "proved",
   "theorems": [
    "C149_tally",
    "C149_optimal",
    "C149_beyond"
   ],
   "note": "Policies are read from the traces the runtime writes; np.histogram is modelled by its documentation."
  },
  {
   "property": "C150",
   "status": "proved",
   "theorems": [
    "C150_speedups",
    "C150_idle",
    "C150_untimed"
   ],
   "note": "The quotients are those before printing, which rounds to three digits. The first part is about whatever was read; the sums of times are the doubles the script adds up."
  }
 ]
}