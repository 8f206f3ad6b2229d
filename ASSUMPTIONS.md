# Print Assumptions for the 602 theorems of MANIFEST.json

Generated by tools/assumptions.py.

## Closed under the global context (409 theorems)

C01_ad_tree_counts_exact, C01_unknown_column, C01_unknown_column_refused, C02_dynamic_tree_history_exact, C02_dynamic_tree_counts_history_exact, C03_pmf_with_value_minus_one_refuted, C04_pickled_tree_history_exact, C04_reloaded_tree_needs_no_dataset, C06_threshold_above_row_count_refuted, C07_in_place_arithmetic_pointwise, C07_arithmetic_pointwise, C07_sum_and_subtract, C07_subtraction_exact, C07_sum_drops_keys_refuted, C08_marginalizes_the_indexed_column, C08_marginalize_column, C08_sorted_columns_are_faithful, C08_set_column_order_is_faithful, C08_faithful_iff_sorted, C08_unsorted_refuted, C08_unknown_column, C08_marginalize_last_column, C08_prepend_column, C08_append_column, C08_insert_column, C08_deduct, C08_set_column_order, C08_order_then_marginalize_twice_refuted, C08_remove_leftmost_overwrites_refuted, C08_remove_leftmost, C08_append, C08_duplicate, C08_copy_behaves_alike_refuted, C08_append_rows, C11_exact_length, C11_two_levels, C11_faithful, C11_no_starvation, C11_empty_table, C11_zero_probability_may_appear, C11_min_instance_count, C11_min_instance_count_faithful, C11_min_instance_count_inaccurate_refuted, C14_preloaded_needs_counters, C15_unseen, C16_results_file, C16_old_or_new_results_refuted, C16_dsep_test_log, C16_dsep_heuristic_log, C16_estimator_log, C18_sampling_order, C18_cycle_never_ends, C18_terminates_iff_acyclic, C18_finalize, C22_directed_paths_are_the_simple_paths, C22_undirected_paths_are_the_simple_paths, C22_nonrecursive_search_agrees, C22_nonrecursive_search_same_end_refuted, C23_memoised_history_exact, C23_memoised_history_exact_for_networks, C23_first_answer_is_kept_forever, C23_replaced_graph_refuted, C24_d_separated_verdicts, C24_d_separated_verdicts_for_networks, C25_d_separated_is_pearl_when_children_suffice, C25_d_separated_vs_pearl_refuted, C26_network_graphs, C26_from_directed_graph, C26_graphs_agree, C27_ipcmb_terminates_cleanly, C28_ipcmb_exact_boundary, C28_ipcmb_exact_parents_children, C29_ipcmb_dsep_parents_children, C29_ipcmb_dsep_contains_boundary, C29_ipcmb_dsep_boundary_too_large, C30_iamb_returns_dependent_variables, C30_iamb_terminates_cleanly, C30_iamb_questions_sensible, C31_iamb_exact_boundary, C31_iamb_dsep_exact, C31_iamb_estimator_exact, C32_correlation_estimate, C32_iamb_fails_if_disconnected, C33_pcmb_terminates, C33_pcmb_never_returns_a_boundary, C34_setcache_is_a_map_keyed_by_sets, C36_starts_aligned, C36_operation_keeps_alignment, C36_any_history, C36_counts, C36_calls_succeed, C36_selections_succeed, C36_negative_column_refuted, C36_keep_missing_row_refuted, C37_general, C37_keep_rows_aligned_iff, C37_unsorted_refuted, C38_save_then_load, C38_lossless, C38_save_touches_only_its_files, C38_not_final_refused, C38_load_reads_only, C38_load_into_final_keeps_rows, C38_white_space, C38_which_labels, C39_deletion_refused, C39_any_history, C39_content_kept, C39_unfinalize_allows, C39_selected_from_final, C40_split_is_partition, C40_split_succeeds_iff, C40_any_fraction, C41_same_columns_within_bounds, C41_otherwise_refused, C41_before_the_split, C42_locked_means_complete, C42_locked_loads, C42_build_then_load, C42_locked_refused, C42_locked_not_deleted, C42_concurrent_reader, C42_two_builders_refuted, C42_two_builders_overwrite, C42_lock_while_saving_a_split_refuted, C43_locks_are_independent, C43_lock_then_locked, C43_unlock_then_unlocked, C43_locked_is_protected, C43_sibling_not_protected, C43_sibling_refuted, C44_locked_refused, C44_completed, C44_lock_only_after_all, C44_failed, C44_at_most_once, C44_touches_only, C44_equal_IDs_overwrite, C44_two_processes_refuted, C45_all, C45_single, C45_range, C45_third_part_ignored, C45_from_end, C45_last_run_refuted, C45_garbage_refused, C45_every_number_has_a_numeral, C46_confusion_counts, C46_different_lengths_refused, C46_broadcast_refuted, C46_evaluate_classifier, C46_empty_boundary_refused, C47_flatten_gives_the_leaves, C47_flatten_idempotent_and_nesting_blind, C47_joint_variables_flattened, C47_joint_variables_unequal_lengths, C48_binary_content, C48_binary_exact_product, C48_binary_needs_columns, C48_binary_proportion_above_one_refuted, C49_IDs, C49_graphs, C50_interrupted_build_repeats, C51_binary_reproducible, C51_same_configuration, C51_binary_other_seed, C51_configured_seed, C51_second_dataset_refuted, C52_ipcmb_parents_children_explained, C52_ipcmb_boundary_explained, C52_iamb_explained, C52_dsep_parents_children_explained, C54_all_documents, C54_industry, C54_unsupported_filter, C54_single_document, C54_document_without_tokens, C54_document_listed_twice, C54_lines_after_dot_W_are_lost, C55_meaning_of_blocks, C55_undeclared_variable, C55_reads_the_network, C55_cyclic_file, C55_missing_distribution, C55_missing_distribution_error, C56_uncached, C56_cached, C56_one_by_one, C56_concurrent, C56_unreadable_file, C56_kill_points, C56_stale, C56_torn, C56_kill_while_writing, C56_two_calls, C56_same_stem, C57_columns_can_be_read_back, C57_integers_can_be_read_back, C58_log_holds_the_output, C58_terminal_transcript, C58_first_failure, C58_captured_stdout_is_closed, C58_second_run_fails, C58_same_ID_overwrites, C58_nonvacuous, C59_no_leaf_lists, C59_dcMI_cannot_start, C59_nonvacuous, C60_dispatch, C60_looking_only, C60_looking_changes_no_file, C60_exp_def_show_creates_the_folder, C60_datapoints_list, C60_exp_run, C60_partial_run_locks_the_rest, C60_run_in_parts, C60_run_then_list, C60_crash_leaves_sound_datapoints, C60_parameters_list, C60_exds_built_once, C60_any_lock_counts_as_built, C60_exds_lock_and_unlock, C60_exds_def_show, C60_exp_lock_and_unlock, C60_other_lock_does_not_stop_a_run, C60_lock_by_hand_blocks_the_build, C61_filter, C61_membership, C61_untagged_refused, C61_all_the_tags, C61_presence, C61_presence_stops_early, C61_shown_index_is_not_the_position, C62_accepts_exactly, C62_one_meaning, C62_layout, C62_everything_can_be_written, C62_one_after_the_other, C62_cut_short, C62_other_characters, C62_heading, C62_properties, C62_characters, C63_one_dataset, C63_never_shared, C63_as_if_alone, C63_others_untouched, C63_selection, C63_change, C63_every_dataset_aligned, C63_labels_list_follows, C63_labels_list_stays, C64_first_read, C64_later_reads, C64_name_kept, C64_name_matches_data, C64_stale_variable_refuted, C65_tables_exact_beside_existing_trees, C65_built_tree_shares_nothing, C65_in_place_changes_only_the_left_tree, C65_in_place_with_itself, C65_sum_changes_no_object, C65_sum_result, C65_result_of_sum_is_independent_refuted, C67_equal_iff_same_data, C67_equivalence, C67_diff_names, C67_diff_empty, C67_finalize_equal, C67_equal_datasets_behave_alike, C67_queries, C67_lookup_after_any_history, C67_values_per_column, C67_values_suffice_for_trees, C67_duplicate_labels_refuted, C70_str_of_conditioned_refuted, C71_datapoint_records_the_run, C71_classifier_datapoint, C71_datapoint_is_a_snapshot, C71_boundary_is_shared_refuted, C71_running_again_keeps_the_datapoint, C71_recording_twice, C71_running, C71_learns_from_all_rows, C71_classifier_needs_a_split, C71_classifier_sees_the_parts, C71_constructing, C71_saved_datapoint, C71_unwritable_destroys_the_file, C71_when_a_run_can_be_saved, C71_reachable_worlds, C71_learns_from_training_rows_refuted, C71_parameters_are_the_runs_own_refuted, C71_failed_save_keeps_the_old_file_refuted, C71_met, C74_fresh_result, C75_shown_path_leads_there, C75_what_is_shown, C75_when_it_fails, C75_path_text, C75_can_be_read_back, C75_unambiguous_sets, C75_ambiguous_refuted, C75_new_path_set, C75_update_refused, C75_update, C75_stale_dataset_refuted, C75_any_script, C75_show_never_fails, C75_root_in_full, C75_dataset_kept, C76_any_session, C76_history_does_not_matter, C76_separate_logs, C76_end, C76_dsep_heuristic_saves_nothing_refuted, C77_refused_calls_do_no_harm, C77_same_calls, C77_static_tree_read_only, C78_only_three_names, C78_other_names_refused, C78_new, C78_histories, C78_build, C78_build_returned, C78_source_raises, C78_failed_split_leaves_old_parts, C78_load, C78_load_returns_iff, C78_load_in_place, C78_failed_load_mixes, C78_save_returned, C78_save_needs_final, C78_finalize_needs_all, C78_round_trip, C78_example_build, C78_example_load_twice, C78_example_failed_rebuild, C78_example_save_too_early, C79_calls_never_mixed, C79_one_way_to_show, C79_empty_text_unmarked, C79_no_endless_work, C79_everything_printed, C79_killed_inside_blocks_all, C79_not_a_string_blocks_all, C79_example, C82_complete, C82_own_files, C82_shared_files, C82_one_purpose, C82_same_kind, C82_no_network, C82_studies_apart, C82_accepted_sample_counts, C82_default_tags, C82_preload, C82_preload_missing, C82_preload_again, C83_accepted, C83_runs, C83_own_files, C83_blankets, C83_sources, C83_datasets, C83_datasets_dcmi, C84_numbers, C84_nothing_found, C84_no_summary, C84_trees, C84_parts, C84_adtree_tags, C84_show, C84_stale, C84_stored, C84_cumulative, C84_plot, C84_legend_right, C84_legend_wrong, C85_killed, C85_moved, C85_only, C85_stopped, C85_no_folder, C85_again, C85_found, C85_left, C85_plots, C85_example_layout, C85_example_run, C85_example_blocked, C85_example_lock_replaced, C85_example_no_folder, C86_every_test, C86_number, C86_by_size, C86_four, C86_terms, C86_index, C86_report, C86_features, C86_all, C86_example, C87_groups, C87_partition, C87_unknown_column, C87_unsorted_refuted, C87_single_column_refuted, C87_example

## `ClassicalDedekindReals.sig_forall_dec` (6 theorems)

C15_bounds, C20_unknown_ID, C47_lookups_ignore_nesting, C57_last_verdict, C70_indexed_table, C70_indexed_table_is_not_removed_refuted

## `ClassicalDedekindReals.sig_forall_dec`, `FunctionalExtensionality.functional_extensionality_dep` (121 theorems)

C03_pmf_is_empirical_distribution, C05_values_override_given, C05_contradiction_refuted, C05_conditional_probability_exact, C05_conditional_probability_after_history, C05_chain_rule, C09_pmf_is_empirical_distribution, C09_empty_variable, C09_no_variables, C10_data_tables, C10_sum_over_marginalises, C10_sum_over_single_variable_refuted, C10_condition_on_chain_rule, C10_lookup_with_one_remaining_variable_refuted, C10_conditioning_refused, C12_every_base_is_valid_or_refused, C19_joint_pmf, C19_lookup, C19_single_variable_lookup_refuted, C20_partial_joint, C20_equals_summed_full_joint, C20_single_root_lookup_refuted, C20_partial_joint_of_a_subnetwork_refuted, C21_sample, C21_box_volume, C21_sample_matrix, C21_deficient_row, C21_recursive_node_sample_refuted, C21_zero_roll_refuted, C35_selection_unique, C35_binary_needs_binary_data_refuted, C48_sampled_random, C48_sampled_exact, C48_sampled_unknown_objective, C48_sampled_unknown_method, C49_second_finalize, C49_not_finalised, C51_sampled_reproducible, C51_sampled_other_seed, C55_joint_distribution, C57_equal_iff_agree, C57_diff, C57_nan, C57_reflexive, C57_missing_value, C57_symmetric, C57_not_symmetric, C57_not_transitive, C57_without_omega, C57_same_test, C57_insufficient_samples, C57_what_a_result_says, C62_number, C62_no_negative_probability, C62_reads_the_network, C62_joint_distribution, C68_equal_means_agreement, C68_equality_laws, C68_equality_not_transitive_refuted, C68_zero_entries_matter, C68_made_from_data, C68_exact_on_small_data, C68_large_data_blurred, C68_conditional_from_data, C68_condition_on_numbers_ignored_refuted, C68_any_two_biases_equal_refuted, C68_pmf_diff_rows, C68_pmf_diff_refuses, C68_red_rows_and_equality, C68_cpmf_diff_rows, C69_caches_are_invisible, C69_edits_before_the_first_question, C69_sampling_ignores_edits, C69_subnetwork_refreshes_sampling, C69_same_question_same_object, C69_forms_are_separate, C69_remove_zeros_is_seen_by_later_callers, C69_first_joint_decides, C69_joint_after_edit_mixes_old_and_new_refuted, C69_partial_changes_sampling_refuted, C70_unconditioned, C70_different_number_of_parents, C70_conditioned_never_equal_refuted, C70_copy_is_not_equal_refuted, C70_only_the_number_of_parents_counts, C70_copy_is_independent, C70_sampling_needs_finalize, C73_unadjusted_any_history, C73_structural_last_tables, C73_structural_after_reset, C73_structural_of_the_tables, C73_cached_first_table, C73_cached_unknown, C73_cached_stable, C73_as_a_G_test_calls, C73_asked_variables_refuted, C73_latest_table_refuted, C74_when_it_fails, C74_rounding, C74_can_be_read_back, C74_colour, C74_one_line, C74_colour_is_reset, C74_names_shown, C74_log_can_be_read_back, C74_columns, C74_gtest_results, C74_gtest_log, C74_dsep_results, C80_every_request_answered_exactly, C80_earlier_answers_stand, C80_one_bad_request_ends_the_service, C80_unknown_requests_end_the_service, C80_example, C81_g_tests_store_so, C88_passes, C88_raises, C88_any_two, C88_truncated_refuted, C88_empty_reference_refuted, C88_example

## `ClassicalDedekindReals.sig_forall_dec`, `ClassicalDedekindReals.sig_not_dec`, `FunctionalExtensionality.functional_extensionality_dep` (11 theorems)

C81_ci_counts, C81_markov_blankets, C81_scores, C81_without_data, C81_order_irrelevant, C81_histogram, C81_condset_is_text_length, C81_condset_overstated, C81_no_summary, C81_no_tests, C81_example

## `ClassicalDedekindReals.sig_forall_dec`, `ClassicalDedekindReals.sig_not_dec`, `Classical_Prop.classic`, `FunctionalExtensionality.functional_extensionality_dep` (55 theorems)

C12_cmi_from_data, C12_mi_from_data, C12_from_exact_tables, C12_information_inequalities, C12_base_factor, C12_invalid_bases_refused, C12_non_float_base_on_empty_tables, C13_reports_the_G_statistic, C13_implementations_agree, C13_preloaded_tree, C14_any_history, C14_no_recomputation, C14_preloaded_entropies, C14_preloaded_breaks_cached_dof, C14_saved_tables, C15_cached_is_structural, C16_decision_and_log, C17_network_cmi_in_ID_order, C17_cmi_symmetric, C17_reversed_order_refuted, C17_dataset_cmi, C35_IGt_selects_the_best, C35_number_selected, C35_binary_variant_agrees, C35_MI_binary, C53_ipcmb_from_data, C53_implementations_agree, C53_parents_children_explained, C53_boundary_explained, C53_exact_boundary_from_data, C53_iamb_from_data, C53_iamb_implementations_agree, C53_iamb_exact_from_data, C57_implementations_agree, C59_debug_tree_tests, C59_marked_tree, C59_plain, C66_any_interleaving, C66_as_if_alone, C66_computed_once, C66_no_recomputation, C66_own_lookups, C66_cached_dof_cannot_share, C66_running_object_cannot_share, C66_counters_of_the_last, C66_dictionary_of_another_dataset, C66_tree_of_another_dataset, C72_any_sequence_of_processes, C72_without_torn_writes, C72_torn_file_stays, C72_rebuilt, C72_parameters_of_the_file, C72_built_as_asked, C72_file_of_another_dataset, C72_own_data_refuted
