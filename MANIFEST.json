{
 "claims": [
  {
   "property": "C01",
   "status": "proved",
   "theorems": [
    "C01_ad_tree_counts_exact",
    "C01_unknown_column",
    "C01_unknown_column_refused"
   ],
   "note": "static AD-tree; every dataset and leaf-list threshold not above the row count"
  },
  {
   "property": "C02",
   "status": "proved",
   "theorems": [
    "C02_dynamic_tree_history_exact",
    "C02_dynamic_tree_counts_history_exact"
   ],
   "note": "dynamic AD-tree, arbitrary call history (counts, tables, reloads)"
  },
  {
   "property": "C03",
   "status": "proved",
   "theorems": [
    "C03_pmf_is_empirical_distribution",
    "C03_pmf_with_value_minus_one_refuted"
   ],
   "note": "static and dynamic, after any history; hypothesis: no declared value -1, with a refutation for -1"
  },
  {
   "property": "C04",
   "status": "proved",
   "theorems": [
    "C04_pickled_tree_history_exact",
    "C04_reloaded_tree_needs_no_dataset"
   ],
   "note": "static tree pickled and reloaded at any moment of a history"
  },
  {
   "property": "C05",
   "status": "proved",
   "theorems": [
    "C05_values_override_given",
    "C05_contradiction_refuted",
    "C05_conditional_probability_exact",
    "C05_conditional_probability_after_history",
    "C05_chain_rule"
   ],
   "note": "values and given do not contradict; for overlapping contradictory arguments the dict merge lets values win (outside the claim)"
  },
  {
   "property": "C06",
   "status": "proved",
   "theorems": [
    "C06_threshold_above_row_count_refuted"
   ],
   "note": "a leaf-list threshold above the row count makes every non-empty query fail (thresholds up to the row count: C01/C02)"
  },
  {
   "property": "C07",
   "status": "proved",
   "theorems": [
    "C07_in_place_arithmetic_pointwise",
    "C07_arithmetic_pointwise",
    "C07_sum_and_subtract",
    "C07_subtraction_exact",
    "C07_sum_drops_keys_refuted"
   ],
   "note": "the trees are well formed (uniform depth); the refutation shows the asymmetry of sum"
  },
  {
   "property": "C08",
   "status": "proved",
   "theorems": [
    "C08_marginalizes_the_indexed_column",
    "C08_marginalize_column",
    "C08_sorted_columns_are_faithful",
    "C08_set_column_order_is_faithful",
    "C08_faithful_iff_sorted",
    "C08_unsorted_refuted",
    "C08_unknown_column",
    "C08_marginalize_last_column",
    "C08_prepend_column",
    "C08_append_column",
    "C08_insert_column",
    "C08_deduct",
    "C08_set_column_order",
    "C08_order_then_marginalize_twice_refuted",
    "C08_remove_leftmost_overwrites_refuted",
    "C08_remove_leftmost",
    "C08_append",
    "C08_duplicate",
    "C08_copy_behaves_alike_refuted",
    "C08_append_rows"
   ],
   "note": "positive statements for sorted column lists, refutations for unsorted ones"
  },
  {
   "property": "C09",
   "status": "proved",
   "theorems": [
    "C09_pmf_is_empirical_distribution",
    "C09_empty_variable",
    "C09_no_variables"
   ],
   "note": "exact reals for floats"
  },
  {
   "property": "C10",
   "status": "proved",
   "theorems": [
    "C10_data_tables",
    "C10_sum_over_marginalises",
    "C10_sum_over_single_variable_refuted",
    "C10_condition_on_chain_rule",
    "C10_lookup_with_one_remaining_variable_refuted",
    "C10_conditioning_refused"
   ],
   "note": "positive theorems plus refutations for the one-variable cases"
  },
  {
   "property": "C11",
   "status": "proved",
   "theorems": [
    "C11_exact_length",
    "C11_two_levels",
    "C11_faithful",
    "C11_no_starvation",
    "C11_empty_table",
    "C11_zero_probability_may_appear",
    "C11_min_instance_count",
    "C11_min_instance_count_faithful",
    "C11_min_instance_count_inaccurate_refuted"
   ],
   "note": "probabilities are exact rationals; non-termination of the empty table is shown for every amount of fuel"
  },
  {
   "property": "C12",
   "status": "proved",
   "theorems": [
    "C12_cmi_from_data",
    "C12_mi_from_data",
    "C12_from_exact_tables",
    "C12_information_inequalities",
    "C12_base_factor",
    "C12_every_base_is_valid_or_refused",
    "C12_invalid_bases_refused",
    "C12_non_float_base_on_empty_tables"
   ],
   "note": "exact reals; Gibbs' inequality proved from ln x <= x - 1"
  },
  {
   "property": "C13",
   "status": "proved",
   "theorems": [
    "C13_reports_the_G_statistic",
    "C13_implementations_agree",
    "C13_preloaded_tree"
   ],
   "note": "chi-square CDF is an arbitrary function parameter"
  },
  {
   "property": "C14",
   "status": "proved",
   "theorems": [
    "C14_any_history",
    "C14_no_recomputation",
    "C14_preloaded_entropies",
    "C14_preloaded_needs_counters",
    "C14_preloaded_breaks_cached_dof",
    "C14_saved_tables"
   ],
   "note": "file model: writing a file is two steps (emptied, then complete); a process may stop between any two"
  },
  {
   "property": "C15",
   "status": "proved",
   "theorems": [
    "C15_cached_is_structural",
    "C15_bounds",
    "C15_unseen"
   ],
   "note": ""
  },
  {
   "property": "C16",
   "status": "proved",
   "theorems": [
    "C16_decision_and_log",
    "C16_results_file",
    "C16_old_or_new_results_refuted",
    "C16_dsep_test_log",
    "C16_dsep_heuristic_log",
    "C16_estimator_log"
   ],
   "note": "covers the G-tests, the d-separation test and both heuristics that keep logs"
  },
  {
   "property": "C17",
   "status": "proved",
   "theorems": [
    "C17_network_cmi_in_ID_order",
    "C17_cmi_symmetric",
    "C17_reversed_order_refuted",
    "C17_dataset_cmi"
   ],
   "note": "positive theorem for ID order and for datasets; refutation for the reversed order"
  },
  {
   "property": "C18",
   "status": "proved",
   "theorems": [
    "C18_sampling_order",
    "C18_cycle_never_ends",
    "C18_terminates_iff_acyclic",
    "C18_finalize"
   ],
   "note": "cyclic networks: OutOfFuel for every fuel = non-termination"
  },
  {
   "property": "C19",
   "status": "proved",
   "theorems": [
    "C19_joint_pmf",
    "C19_lookup",
    "C19_single_variable_lookup_refuted"
   ],
   "note": ""
  },
  {
   "property": "C20",
   "status": "proved",
   "theorems": [
    "C20_partial_joint",
    "C20_equals_summed_full_joint",
    "C20_single_root_lookup_refuted",
    "C20_partial_joint_of_a_subnetwork_refuted",
    "C20_unknown_ID"
   ],
   "note": "with refutations for single root variables and sub-networks"
  },
  {
   "property": "C21",
   "status": "proved",
   "theorems": [
    "C21_sample",
    "C21_box_volume",
    "C21_sample_matrix",
    "C21_deficient_row",
    "C21_recursive_node_sample_refuted",
    "C21_zero_roll_refuted"
   ],
   "note": "volume of the set of rolls, as a box of half-open intervals"
  },
  {
   "property": "C22",
   "status": "proved",
   "theorems": [
    "C22_directed_paths_are_the_simple_paths",
    "C22_undirected_paths_are_the_simple_paths",
    "C22_nonrecursive_search_agrees",
    "C22_nonrecursive_search_same_end_refuted"
   ],
   "note": ""
  },
  {
   "property": "C23",
   "status": "proved",
   "theorems": [
    "C23_memoised_history_exact",
    "C23_memoised_history_exact_for_networks",
    "C23_first_answer_is_kept_forever",
    "C23_replaced_graph_refuted"
   ],
   "note": "with a refutation once the graph is replaced on the same object"
  },
  {
   "property": "C24",
   "status": "proved",
   "theorems": [
    "C24_d_separated_verdicts",
    "C24_d_separated_verdicts_for_networks"
   ],
   "note": ""
  },
  {
   "property": "C25",
   "status": "proved",
   "theorems": [
    "C25_d_separated_is_pearl_when_children_suffice",
    "C25_d_separated_vs_pearl_refuted"
   ],
   "note": "with a refutation without the proviso"
  },
  {
   "property": "C26",
   "status": "proved",
   "theorems": [
    "C26_network_graphs",
    "C26_from_directed_graph",
    "C26_graphs_agree"
   ],
   "note": ""
  },
  {
   "property": "C27",
   "status": "proved",
   "theorems": [
    "C27_ipcmb_terminates_cleanly"
   ],
   "note": ""
  },
  {
   "property": "C28",
   "status": "proved",
   "theorems": [
    "C28_ipcmb_exact_boundary",
    "C28_ipcmb_exact_parents_children"
   ],
   "note": "any CI test object that decides Pearl d-separation, any iteration order"
  },
  {
   "property": "C29",
   "status": "proved",
   "theorems": [
    "C29_ipcmb_dsep_parents_children",
    "C29_ipcmb_dsep_contains_boundary",
    "C29_ipcmb_dsep_boundary_too_large"
   ],
   "note": "with a concrete DAG where the result is too large"
  },
  {
   "property": "C30",
   "status": "proved",
   "theorems": [
    "C30_iamb_returns_dependent_variables",
    "C30_iamb_terminates_cleanly",
    "C30_iamb_questions_sensible"
   ],
   "note": ""
  },
  {
   "property": "C31",
   "status": "proved",
   "theorems": [
    "C31_iamb_exact_boundary",
    "C31_iamb_dsep_exact",
    "C31_iamb_estimator_exact"
   ],
   "note": "for Pearl's rule and for the library's own rule"
  },
  {
   "property": "C32",
   "status": "proved",
   "theorems": [
    "C32_correlation_estimate",
    "C32_iamb_fails_if_disconnected"
   ],
   "note": ""
  },
  {
   "property": "C33",
   "status": "proved",
   "theorems": [
    "C33_pcmb_terminates",
    "C33_pcmb_never_returns_a_boundary"
   ],
   "note": "the claim of a working PCMB is refuted: no run returns a non-empty list"
  },
  {
   "property": "C34",
   "status": "proved",
   "theorems": [
    "C34_setcache_is_a_map_keyed_by_sets"
   ],
   "note": ""
  },
  {
   "property": "C35",
   "status": "proved",
   "theorems": [
    "C35_IGt_selects_the_best",
    "C35_number_selected",
    "C35_selection_unique",
    "C35_binary_variant_agrees",
    "C35_MI_binary",
    "C35_binary_needs_binary_data_refuted"
   ],
   "note": "exact reals"
  },
  {
   "property": "C36",
   "status": "proved",
   "theorems": [
    "C36_starts_aligned",
    "C36_operation_keeps_alignment",
    "C36_any_history",
    "C36_counts",
    "C36_calls_succeed",
    "C36_selections_succeed",
    "C36_negative_column_refuted",
    "C36_keep_missing_row_refuted"
   ],
   "note": "with refutations for negative column indices and missing rows"
  },
  {
   "property": "C37",
   "status": "proved",
   "theorems": [
    "C37_general",
    "C37_keep_rows_aligned_iff",
    "C37_unsorted_refuted"
   ],
   "note": "exact condition under which labels stay aligned"
  },
  {
   "property": "C38",
   "status": "proved",
   "theorems": [
    "C38_save_then_load",
    "C38_lossless",
    "C38_save_touches_only_its_files",
    "C38_not_final_refused",
    "C38_load_reads_only",
    "C38_load_into_final_keeps_rows",
    "C38_white_space",
    "C38_which_labels"
   ],
   "note": "exact condition under which a label list is restored; file system model in FS_Model.v"
  },
  {
   "property": "C39",
   "status": "proved",
   "theorems": [
    "C39_deletion_refused",
    "C39_any_history",
    "C39_content_kept",
    "C39_unfinalize_allows",
    "C39_selected_from_final"
   ],
   "note": ""
  },
  {
   "property": "C40",
   "status": "proved",
   "theorems": [
    "C40_split_is_partition",
    "C40_split_succeeds_iff",
    "C40_any_fraction"
   ],
   "note": ""
  },
  {
   "property": "C41",
   "status": "proved",
   "theorems": [
    "C41_same_columns_within_bounds",
    "C41_otherwise_refused",
    "C41_before_the_split"
   ],
   "note": ""
  },
  {
   "property": "C42",
   "status": "proved",
   "theorems": [
    "C42_locked_means_complete",
    "C42_locked_loads",
    "C42_build_then_load",
    "C42_locked_refused",
    "C42_locked_not_deleted",
    "C42_concurrent_reader",
    "C42_two_builders_refuted",
    "C42_two_builders_overwrite",
    "C42_lock_while_saving_a_split_refuted"
   ],
   "note": "every crash point; one builder; two concurrent builders are a refutation"
  },
  {
   "property": "C43",
   "status": "proved",
   "theorems": [
    "C43_locks_are_independent",
    "C43_lock_then_locked",
    "C43_unlock_then_unlocked",
    "C43_locked_is_protected",
    "C43_sibling_not_protected",
    "C43_sibling_refuted"
   ],
   "note": "sibling subexperiments are a refutation"
  },
  {
   "property": "C44",
   "status": "proved",
   "theorems": [
    "C44_locked_refused",
    "C44_completed",
    "C44_lock_only_after_all",
    "C44_failed",
    "C44_at_most_once",
    "C44_touches_only",
    "C44_equal_IDs_overwrite",
    "C44_two_processes_refuted"
   ],
   "note": "every crash point; two concurrent processes are a refutation"
  },
  {
   "property": "C45",
   "status": "proved",
   "theorems": [
    "C45_all",
    "C45_single",
    "C45_range",
    "C45_third_part_ignored",
    "C45_from_end",
    "C45_last_run_refuted",
    "C45_garbage_refused",
    "C45_every_number_has_a_numeral"
   ],
   "note": "'-1' is a refutation"
  },
  {
   "property": "C46",
   "status": "proved",
   "theorems": [
    "C46_confusion_counts",
    "C46_different_lengths_refused",
    "C46_broadcast_refuted",
    "C46_evaluate_classifier",
    "C46_empty_boundary_refused"
   ],
   "note": "vectors of length one are a refutation"
  },
  {
   "property": "C47",
   "status": "proved",
   "theorems": [
    "C47_flatten_gives_the_leaves",
    "C47_flatten_idempotent_and_nesting_blind",
    "C47_lookups_ignore_nesting",
    "C47_joint_variables_flattened",
    "C47_joint_variables_unequal_lengths"
   ],
   "note": ""
  },
  {
   "property": "C48",
   "status": "proved",
   "theorems": [
    "C48_binary_content",
    "C48_binary_exact_product",
    "C48_binary_needs_columns",
    "C48_binary_proportion_above_one_refuted",
    "C48_sampled_random",
    "C48_sampled_exact",
    "C48_sampled_unknown_objective",
    "C48_sampled_unknown_method"
   ],
   "note": "the product rows*p is any rational; proportion above one is a refutation"
  },
  {
   "property": "C49",
   "status": "proved",
   "theorems": [
    "C49_IDs",
    "C49_graphs",
    "C49_second_finalize",
    "C49_not_finalised"
   ],
   "note": "second finalize is a refutation"
  },
  {
   "property": "C50",
   "status": "proved",
   "theorems": [
    "C50_interrupted_build_repeats"
   ],
   "note": ""
  },
  {
   "property": "C51",
   "status": "proved",
   "theorems": [
    "C51_binary_reproducible",
    "C51_sampled_reproducible",
    "C51_same_configuration",
    "C51_binary_other_seed",
    "C51_sampled_other_seed",
    "C51_configured_seed",
    "C51_second_dataset_refuted"
   ],
   "note": "generator is abstract; second use of a source is a refutation"
  },
  {
   "property": "C52",
   "status": "proved",
   "theorems": [
    "C52_ipcmb_parents_children_explained",
    "C52_ipcmb_boundary_explained",
    "C52_iamb_explained",
    "C52_dsep_parents_children_explained"
   ],
   "note": "any CI test that records its answers"
  },
  {
   "property": "C53",
   "status": "proved",
   "theorems": [
    "C53_ipcmb_from_data",
    "C53_implementations_agree",
    "C53_parents_children_explained",
    "C53_boundary_explained",
    "C53_exact_boundary_from_data",
    "C53_iamb_from_data",
    "C53_iamb_implementations_agree",
    "C53_iamb_exact_from_data"
   ],
   "note": "G-tests composed with IPC-MB and IAMB"
  },
  {
   "property": "C54",
   "status": "proved",
   "theorems": [
    "C54_all_documents",
    "C54_industry",
    "C54_unsupported_filter",
    "C54_single_document",
    "C54_document_without_tokens",
    "C54_document_listed_twice",
    "C54_lines_after_dot_W_are_lost"
   ],
   "note": "Model Rcv_Model.v: the text of the token, topic and industry files is parsed character by character; the ID file is what numpy.loadtxt returns. C54_all_documents / C54_industry are the positive statements over rendered files (Rcv_Spec.v); the other five theorems give the failures and the silently ignored '.W' lines."
  },
  {
   "property": "C55",
   "status": "proved",
   "theorems": [
    "C55_meaning_of_blocks",
    "C55_undeclared_variable",
    "C55_reads_the_network",
    "C55_joint_distribution",
    "C55_cyclic_file",
    "C55_missing_distribution",
    "C55_missing_distribution_error"
   ],
   "note": "Model Bif_Model.v: Transformers.py from blocks on; lark's parsing of the text into blocks is trusted. C55_meaning_of_blocks speaks about arbitrary block lists; C55_joint_distribution composes with C19; the failures are C55_undeclared_variable, C55_missing_distribution(_error), C55_cyclic_file."
  },
  {
   "property": "C56",
   "status": "proved",
   "theorems": [
    "C56_uncached",
    "C56_cached",
    "C56_one_by_one",
    "C56_concurrent",
    "C56_unreadable_file",
    "C56_kill_points",
    "C56_stale",
    "C56_torn",
    "C56_kill_while_writing",
    "C56_two_calls",
    "C56_same_stem"
   ],
   "note": "Model Bif_Model.v, section Cache: the steps of read_bif_file that touch the disk. C56_concurrent is the invariant over all histories; C56_stale, C56_torn, C56_kill_while_writing, C56_two_calls and C56_same_stem are the failures, for every parser and file."
  },
  {
   "property": "C57",
   "status": "proved",
   "theorems": [
    "C57_equal_iff_agree",
    "C57_diff",
    "C57_nan",
    "C57_reflexive",
    "C57_missing_value",
    "C57_symmetric",
    "C57_not_symmetric",
    "C57_not_transitive",
    "C57_columns_can_be_read_back",
    "C57_implementations_agree",
    "C57_without_omega",
    "C57_same_test",
    "C57_insufficient_samples",
    "C57_last_verdict",
    "C57_what_a_result_says",
    "C57_integers_can_be_read_back"
   ],
   "note": "Model CIResult_Model.v; C57_implementations_agree composes with C13. C57_nan, C57_missing_value, C57_not_symmetric, C57_not_transitive and C57_without_omega are the negative parts."
  },
  {
   "property": "C58",
   "status": "proved",
   "theorems": [
    "C58_log_holds_the_output",
    "C58_terminal_transcript",
    "C58_first_failure",
    "C58_captured_stdout_is_closed",
    "C58_second_run_fails",
    "C58_same_ID_overwrites",
    "C58_nonvacuous"
   ],
   "note": "Model Logs_Model.v. C58_captured_stdout_is_closed and C58_second_run_fails are the negative parts."
  },
  {
   "property": "C59",
   "status": "proved",
   "theorems": [
    "C59_debug_tree_tests",
    "C59_no_leaf_lists",
    "C59_marked_tree",
    "C59_plain",
    "C59_dcMI_cannot_start",
    "C59_nonvacuous"
   ],
   "note": "Model Debug_Model.v over GTest_Model.v; C59_debug_tree_tests composes a simulation with the correctness of the G-test (C13). C59_marked_tree, C59_plain (level >= 1) and C59_dcMI_cannot_start are negative results."
  },
  {
   "property": "C60",
   "status": "proved",
   "theorems": [
    "C60_dispatch",
    "C60_looking_only",
    "C60_looking_changes_no_file",
    "C60_exp_def_show_creates_the_folder",
    "C60_datapoints_list",
    "C60_exp_run",
    "C60_partial_run_locks_the_rest",
    "C60_run_in_parts",
    "C60_run_then_list",
    "C60_crash_leaves_sound_datapoints",
    "C60_parameters_list",
    "C60_exds_built_once",
    "C60_any_lock_counts_as_built",
    "C60_exds_lock_and_unlock",
    "C60_exds_def_show",
    "C60_exp_lock_and_unlock",
    "C60_other_lock_does_not_stop_a_run",
    "C60_lock_by_hand_blocks_the_build"
   ],
   "note": "Model Command_Model.v, on top of Experiment_Model, Storage_Model and Select_Model. C60_partial_run_locks_the_rest, C60_any_lock_counts_as_built, C60_lock_by_hand_blocks_the_build and C60_other_lock_does_not_stop_a_run are the surprising parts."
  },
  {
   "property": "C61",
   "status": "proved",
   "theorems": [
    "C61_filter",
    "C61_membership",
    "C61_untagged_refused",
    "C61_all_the_tags",
    "C61_presence",
    "C61_presence_stops_early",
    "C61_shown_index_is_not_the_position"
   ],
   "note": "Model Command_Model.v. C61_shown_index_is_not_the_position is the negative part."
  },
  {
   "property": "C62",
   "status": "proved",
   "theorems": [
    "C62_accepts_exactly",
    "C62_one_meaning",
    "C62_layout",
    "C62_everything_can_be_written",
    "C62_one_after_the_other",
    "C62_cut_short",
    "C62_other_characters",
    "C62_number",
    "C62_no_negative_probability",
    "C62_heading",
    "C62_properties",
    "C62_reads_the_network",
    "C62_joint_distribution",
    "C62_characters"
   ],
   "note": "lark is modelled by a left-to-right parser for this grammar (Earley with the dynamic lexer accepts the same texts: the next character always decides the rule); float() is exact. The model parser was run by vm_compute on five of the BIF files in tests/bif_files and returned the right number of blocks."
  },
  {
   "property": "C63",
   "status": "proved",
   "theorems": [
    "C63_one_dataset",
    "C63_never_shared",
    "C63_as_if_alone",
    "C63_others_untouched",
    "C63_selection",
    "C63_change",
    "C63_every_dataset_aligned",
    "C63_labels_list_follows",
    "C63_labels_list_stays"
   ],
   "note": "Object-level model (references to lists and matrices); invariant: no object is held twice; refinement to the value model of C36-C39. The aliasing of get_column_labels is stated as two theorems."
  },
  {
   "property": "C64",
   "status": "proved",
   "theorems": [
    "C64_first_read",
    "C64_later_reads",
    "C64_name_kept",
    "C64_name_matches_data",
    "C64_stale_variable_refuted"
   ],
   "note": "Same object-level model as C63. The mismatch of stale variables is C64_stale_variable_refuted, for every aligned dataset and column."
  },
  {
   "property": "C65",
   "status": "proved",
   "theorems": [
    "C65_tables_exact_beside_existing_trees",
    "C65_built_tree_shares_nothing",
    "C65_in_place_changes_only_the_left_tree",
    "C65_in_place_with_itself",
    "C65_sum_changes_no_object",
    "C65_sum_result",
    "C65_result_of_sum_is_independent_refuted"
   ],
   "note": "Heap model refines the value model of C01-C07 (so its 'no sharing' simplification is now proved for the building code); the independence of a.sum(b) from a is refuted."
  },
  {
   "property": "C66",
   "status": "proved",
   "theorems": [
    "C66_any_interleaving",
    "C66_as_if_alone",
    "C66_computed_once",
    "C66_no_recomputation",
    "C66_own_lookups",
    "C66_cached_dof_cannot_share",
    "C66_running_object_cannot_share",
    "C66_counters_of_the_last",
    "C66_dictionary_of_another_dataset",
    "C66_tree_of_another_dataset"
   ],
   "note": "World of trees, dictionaries and objects with references; program = allowed sequences of actions. C66_any_interleaving, C66_as_if_alone, C66_computed_once, C66_no_recomputation, C66_own_lookups; what fails outside the conditions: C66_cached_dof_cannot_share, C66_running_object_cannot_share, C66_counters_of_the_last, C66_dictionary_of_another_dataset, C66_tree_of_another_dataset."
  },
  {
   "property": "C67",
   "status": "proved",
   "theorems": [
    "C67_equal_iff_same_data",
    "C67_equivalence",
    "C67_diff_names",
    "C67_diff_empty",
    "C67_finalize_equal",
    "C67_equal_datasets_behave_alike",
    "C67_queries",
    "C67_lookup_after_any_history",
    "C67_values_per_column",
    "C67_values_suffice_for_trees",
    "C67_duplicate_labels_refuted"
   ],
   "note": "C67_equal_iff_same_data, C67_equivalence, C67_diff_names/_empty, C67_equal_datasets_behave_alike, C67_lookup_after_any_history, C67_values_per_column and C67_values_suffice_for_trees (through C01). Finding: with a repeated column label only the first column can be reached by label."
  },
  {
   "property": "C68",
   "status": "proved",
   "theorems": [
    "C68_equal_means_agreement",
    "C68_equality_laws",
    "C68_equality_not_transitive_refuted",
    "C68_zero_entries_matter",
    "C68_made_from_data",
    "C68_exact_on_small_data",
    "C68_large_data_blurred",
    "C68_conditional_from_data",
    "C68_condition_on_numbers_ignored_refuted",
    "C68_any_two_biases_equal_refuted",
    "C68_pmf_diff_rows",
    "C68_pmf_diff_refuses",
    "C68_red_rows_and_equality",
    "C68_cpmf_diff_rows"
   ],
   "note": "Exact reals for floats; printed output as a list of lines, str() and number formatting are parameters."
  },
  {
   "property": "C69",
   "status": "proved",
   "theorems": [
    "C69_caches_are_invisible",
    "C69_edits_before_the_first_question",
    "C69_sampling_ignores_edits",
    "C69_subnetwork_refreshes_sampling",
    "C69_same_question_same_object",
    "C69_forms_are_separate",
    "C69_remove_zeros_is_seen_by_later_callers",
    "C69_first_joint_decides",
    "C69_joint_after_edit_mixes_old_and_new_refuted",
    "C69_partial_changes_sampling_refuted"
   ],
   "note": "BNObj_Model replays the requests with all caches and a heap of PMF objects; answers are compared with the cache-free functions characterised by C19-C21. Mutation of subnetwork objects handed out, and of rows in place, are not requests of the model."
  },
  {
   "property": "C70",
   "status": "proved",
   "theorems": [
    "C70_unconditioned",
    "C70_different_number_of_parents",
    "C70_conditioned_never_equal_refuted",
    "C70_copy_is_not_equal_refuted",
    "C70_only_the_number_of_parents_counts",
    "C70_copy_is_independent",
    "C70_sampling_needs_finalize",
    "C70_indexed_table",
    "C70_indexed_table_is_not_removed_refuted",
    "C70_str_of_conditioned_refuted"
   ],
   "note": "Tables over exact reals; properties dict left out."
  },
  {
   "property": "C71",
   "status": "proved",
   "theorems": [
    "C71_datapoint_records_the_run",
    "C71_classifier_datapoint",
    "C71_datapoint_is_a_snapshot",
    "C71_boundary_is_shared_refuted",
    "C71_running_again_keeps_the_datapoint",
    "C71_recording_twice",
    "C71_running",
    "C71_learns_from_all_rows",
    "C71_classifier_needs_a_split",
    "C71_classifier_sees_the_parts",
    "C71_constructing",
    "C71_saved_datapoint",
    "C71_unwritable_destroys_the_file",
    "C71_when_a_run_can_be_saved",
    "C71_reachable_worlds",
    "C71_learns_from_training_rows_refuted",
    "C71_parameters_are_the_runs_own_refuted",
    "C71_failed_save_keeps_the_old_file_refuted",
    "C71_met"
   ],
   "note": "Object heaps: dictionaries, lists, runs, datapoints, files; algorithms and evaluators are arbitrary functions of the dataset and the dictionary that may change the dictionary and raise. The refuted theorems: the boundary list is shared, test rows take part in learning the boundary, parameters of one run show in another's datapoint, a failed save keeps the old file."
  },
  {
   "property": "C72",
   "status": "proved",
   "theorems": [
    "C72_any_sequence_of_processes",
    "C72_without_torn_writes",
    "C72_torn_file_stays",
    "C72_rebuilt",
    "C72_parameters_of_the_file",
    "C72_built_as_asked",
    "C72_file_of_another_dataset",
    "C72_own_data_refuted"
   ],
   "note": "Any sequence of processes with crash points; cut-off files stay until a process that loads nothing replaces them; class and threshold of the file win; a file of another table is not noticed (refuted)."
  },
  {
   "property": "C73",
   "status": "proved",
   "theorems": [
    "C73_unadjusted_any_history",
    "C73_structural_last_tables",
    "C73_structural_after_reset",
    "C73_structural_of_the_tables",
    "C73_cached_first_table",
    "C73_cached_unknown",
    "C73_cached_stable",
    "C73_as_a_G_test_calls",
    "C73_asked_variables_refuted",
    "C73_latest_table_refuted"
   ],
   "note": "All three classes under any history; first table wins (cached), last context wins (structural); refuted: the variables in the question matter, the latest table counts."
  },
  {
   "property": "C74",
   "status": "proved",
   "theorems": [
    "C74_when_it_fails",
    "C74_fresh_result",
    "C74_rounding",
    "C74_can_be_read_back",
    "C74_colour",
    "C74_one_line",
    "C74_colour_is_reset",
    "C74_names_shown",
    "C74_log_can_be_read_back",
    "C74_columns",
    "C74_gtest_results",
    "C74_gtest_log",
    "C74_dsep_results"
   ],
   "note": "Full model of __str__ including the format specifications (padding, round-half-even to d digits). Infinities and negative zero are not modelled."
  },
  {
   "property": "C75",
   "status": "proved",
   "theorems": [
    "C75_shown_path_leads_there",
    "C75_what_is_shown",
    "C75_when_it_fails",
    "C75_path_text",
    "C75_can_be_read_back",
    "C75_unambiguous_sets",
    "C75_ambiguous_refuted",
    "C75_new_path_set",
    "C75_update_refused",
    "C75_update",
    "C75_stale_dataset_refuted",
    "C75_any_script",
    "C75_show_never_fails",
    "C75_root_in_full",
    "C75_dataset_kept"
   ],
   "note": "Paths are POSIX paths as anchor and parts. Refuted in passing: two different path sets can print the same text (one path below the root, one beside it); a dataset definition that is taken away leaves its folder in the path set."
  },
  {
   "property": "C76",
   "status": "proved",
   "theorems": [
    "C76_any_session",
    "C76_history_does_not_matter",
    "C76_separate_logs",
    "C76_end",
    "C76_dsep_heuristic_saves_nothing_refuted"
   ],
   "note": "Built on the graph model of C22-C26 and the answers of C29/C32; timings left out. Refuted in passing: DSeparationAsCorrelationHeuristic.end() cannot save."
  },
  {
   "property": "C77",
   "status": "proved",
   "theorems": [
    "C77_refused_calls_do_no_harm",
    "C77_same_calls",
    "C77_static_tree_read_only"
   ],
   "note": "State-passing version of the AD-tree calls that returns the tree also when the call raises, proved to agree with the model of C01-C04; the invariant of C01 is kept by every call."
  },
  {
   "property": "C78",
   "status": "proved",
   "theorems": [
    "C78_only_three_names",
    "C78_other_names_refused",
    "C78_new",
    "C78_histories",
    "C78_build",
    "C78_build_returned",
    "C78_source_raises",
    "C78_failed_split_leaves_old_parts",
    "C78_load",
    "C78_load_returns_iff",
    "C78_load_in_place",
    "C78_failed_load_mixes",
    "C78_save_returned",
    "C78_save_needs_final",
    "C78_finalize_needs_all",
    "C78_round_trip",
    "C78_example_build",
    "C78_example_load_twice",
    "C78_example_failed_rebuild",
    "C78_example_save_too_early"
   ],
   "note": "Object with addresses (in-place filling, exceptions half-way). The disk effect of build is proved equal to C42's program. Findings: loading into an object whose matrices are final leaves them in compressed-row format although final (finalize does nothing there); a failed split leaves the new full matrix next to the old test matrix; a failed load mixes new matrices with old labels; load does not restore train_rows, test_rows, total_row_count."
  },
  {
   "property": "C79",
   "status": "proved",
   "theorems": [
    "C79_calls_never_mixed",
    "C79_one_way_to_show",
    "C79_empty_text_unmarked",
    "C79_no_endless_work",
    "C79_everything_printed",
    "C79_killed_inside_blocks_all",
    "C79_not_a_string_blocks_all",
    "C79_example"
   ],
   "note": "Interleaving model of the processes with the lock as a semaphore. Findings: mpprint(x) with x not a string raises AttributeError with the lock taken, blocking every later call of every process; mpprint() prints an empty line without the process's mark."
  },
  {
   "property": "C80",
   "status": "proved",
   "theorems": [
    "C80_every_request_answered_exactly",
    "C80_earlier_answers_stand",
    "C80_one_bad_request_ends_the_service",
    "C80_unknown_requests_end_the_service",
    "C80_example"
   ],
   "note": "The wire format, the printed messages and the network are not modelled; requests are taken in the order of delivery. Finding: one unknown or malformed request ends the service for everybody, because the loop has neither an else branch nor a try."
  },
  {
   "property": "C81",
   "status": "proved",
   "theorems": [
    "C81_ci_counts",
    "C81_markov_blankets",
    "C81_scores",
    "C81_without_data",
    "C81_order_irrelevant",
    "C81_histogram",
    "C81_g_tests_store_so",
    "C81_condset_is_text_length",
    "C81_condset_overstated",
    "C81_no_summary",
    "C81_no_tests",
    "C81_example"
   ],
   "note": "Floats are reals, files are their contents or missing; which per-run entries the flags add to the output is not modelled. Findings: len(result.Z) is the length of a string; recall is divided by len(true_mb) without the guard that precision has."
  },
  {
   "property": "C82",
   "status": "proved",
   "theorems": [
    "C82_complete",
    "C82_own_files",
    "C82_shared_files",
    "C82_one_purpose",
    "C82_same_kind",
    "C82_no_network",
    "C82_studies_apart",
    "C82_accepted_sample_counts",
    "C82_default_tags",
    "C82_preload",
    "C82_preload_missing",
    "C82_preload_again"
   ],
   "note": "Thresholds are numbers written in decimal; folders are not created. Findings: every run's source_bayesian_network is overwritten with None; preload_ADTrees changes earlier runs before it fails."
  },
  {
   "property": "C83",
   "status": "proved",
   "theorems": [
    "C83_accepted",
    "C83_runs",
    "C83_own_files",
    "C83_blankets",
    "C83_sources",
    "C83_datasets",
    "C83_datasets_dcmi"
   ],
   "note": "Number parsing and reading of networks are parameters. Finding: arguments.source_type == ['ds'] never holds, so the form of the sample count is never validated."
  },
  {
   "property": "C84",
   "status": "proved",
   "theorems": [
    "C84_numbers",
    "C84_nothing_found",
    "C84_no_summary",
    "C84_trees",
    "C84_parts",
    "C84_adtree_tags",
    "C84_show",
    "C84_stale",
    "C84_stored",
    "C84_cumulative",
    "C84_plot",
    "C84_legend_right",
    "C84_legend_wrong"
   ],
   "note": "Durations are rationals with exact arithmetic, memory sizes are left out, matplotlib is modelled by two facts: it refuses axes of different length and gives the names of a legend to the lines in order. Findings: stale summaries (stored also for a selection by --algrun-tag), one missing file hides all results, wrong names in the legend."
  },
  {
   "property": "C85",
   "status": "proved",
   "theorems": [
    "C85_killed",
    "C85_moved",
    "C85_only",
    "C85_stopped",
    "C85_no_folder",
    "C85_again",
    "C85_found",
    "C85_left",
    "C85_plots",
    "C85_example_layout",
    "C85_example_run",
    "C85_example_blocked",
    "C85_example_lock_replaced",
    "C85_example_no_folder"
   ],
   "note": "Programs of reading steps, mkdir and rename on the file system of FS_Model, with rename(2)'s rules. Proved: C85_killed, C85_moved, C85_only, C85_stopped, C85_again (induction over killed runs), C85_found (linked to sub_path, lock_file, datapoint_file, log_file of Experiment_Model), C85_left, C85_plots. Assumes folders where folders should be, a non-empty sub-experiment name, and no lock already at its new place (C85_example_lock_replaced shows that it would be overwritten)."
  },
  {
   "property": "C86",
   "status": "proved",
   "theorems": [
    "C86_every_test",
    "C86_number",
    "C86_by_size",
    "C86_four",
    "C86_terms",
    "C86_index",
    "C86_report",
    "C86_features",
    "C86_all",
    "C86_example"
   ],
   "note": "Features are code points, a set is the increasing list of its elements, the iteration order of sets is a parameter with only Permutation assumed. Proved: C86_every_test, C86_number, C86_by_size, C86_four, C86_terms, C86_index, C86_report, C86_features, C86_all, by a bijection between the tests that need J and the pairs of features. Not modelled: printing of tests, as_bits, the command line."
  },
  {
   "property": "C87",
   "status": "proved",
   "theorems": [
    "C87_groups",
    "C87_partition",
    "C87_unknown_column",
    "C87_unsorted_refuted",
    "C87_single_column_refuted",
    "C87_example"
   ],
   "note": "On the tables of CTable_Model. Proved: C87_groups, C87_partition, C87_unknown_column, and the two failures by witness: C87_unsorted_refuted, C87_single_column_refuted. C08_faithful_iff_sorted and C08_set_column_order_is_faithful say when the index matches."
  },
  {
   "property": "C88",
   "status": "proved",
   "theorems": [
    "C88_passes",
    "C88_raises",
    "C88_any_two",
    "C88_truncated_refuted",
    "C88_empty_reference_refuted",
    "C88_example"
   ],
   "note": "On the results and the equality of CIResult_Model, floats being reals or nan. Proved: C88_passes, C88_raises, C88_any_two, C88_truncated_refuted, C88_empty_reference_refuted. Not modelled: what is printed before the exception; the lists are taken to share no result objects (they are loaded from different pickles)."
  }
 ]
}