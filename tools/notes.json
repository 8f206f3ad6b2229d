{
 "C01": [
  "proved",
  "static AD-tree; every dataset and leaf-list threshold not above the row count"
 ],
 "C02": [
  "proved",
  "dynamic AD-tree, arbitrary call history (counts, tables, reloads)"
 ],
 "C03": [
  "proved",
  "static and dynamic, after any history; hypothesis: no declared value -1, with a refutation for -1"
 ],
 "C04": [
  "proved",
  "static tree pickled and reloaded at any moment of a history"
 ],
 "C05": [
  "proved",
  "values and given do not contradict; for overlapping contradictory arguments the dict merge lets values win (outside the claim)"
 ],
 "C06": [
  "proved",
  "a leaf-list threshold above the row count makes every non-empty query fail (thresholds up to the row count: C01/C02)"
 ],
 "C07": [
  "proved",
  "the trees are well formed (uniform depth); the refutation shows the asymmetry of sum"
 ],
 "C08": [
  "proved",
  "positive statements for sorted column lists, refutations for unsorted ones"
 ],
 "C09": [
  "proved",
  "exact reals for floats"
 ],
 "C10": [
  "proved",
  "positive theorems plus refutations for the one-variable cases"
 ],
 "C11": [
  "proved",
  "probabilities are exact rationals; non-termination of the empty table is shown for every amount of fuel"
 ],
 "C12": [
  "proved",
  "exact reals; Gibbs' inequality proved from ln x <= x - 1"
 ],
 "C13": [
  "proved",
  "chi-square CDF is an arbitrary function parameter"
 ],
 "C14": [
  "proved",
  "file model: writing a file is two steps (emptied, then complete); a process may stop between any two"
 ],
 "C16": [
  "proved",
  "covers the G-tests, the d-separation test and both heuristics that keep logs"
 ],
 "C17": [
  "proved",
  "positive theorem for ID order and for datasets; refutation for the reversed order"
 ],
 "C18": [
  "proved",
  "cyclic networks: OutOfFuel for every fuel = non-termination"
 ],
 "C20": [
  "proved",
  "with refutations for single root variables and sub-networks"
 ],
 "C21": [
  "proved",
  "volume of the set of rolls, as a box of half-open intervals"
 ],
 "C23": [
  "proved",
  "with a refutation once the graph is replaced on the same object"
 ],
 "C25": [
  "proved",
  "with a refutation without the proviso"
 ],
 "C28": [
  "proved",
  "any CI test object that decides Pearl d-separation, any iteration order"
 ],
 "C29": [
  "proved",
  "with a concrete DAG where the result is too large"
 ],
 "C31": [
  "proved",
  "for Pearl's rule and for the library's own rule"
 ],
 "C33": [
  "proved",
  "the claim of a working PCMB is refuted: no run returns a non-empty list"
 ],
 "C35": [
  "proved",
  "exact reals"
 ],
 "C36": [
  "proved",
  "with refutations for negative column indices and missing rows"
 ],
 "C37": [
  "proved",
  "exact condition under which labels stay aligned"
 ],
 "C38": [
  "proved",
  "exact condition under which a label list is restored; file system model in FS_Model.v"
 ],
 "C42": [
  "proved",
  "every crash point; one builder; two concurrent builders are a refutation"
 ],
 "C43": [
  "proved",
  "sibling subexperiments are a refutation"
 ],
 "C44": [
  "proved",
  "every crash point; two concurrent processes are a refutation"
 ],
 "C45": [
  "proved",
  "'-1' is a refutation"
 ],
 "C46": [
  "proved",
  "vectors of length one are a refutation"
 ],
 "C48": [
  "proved",
  "the product rows*p is any rational; proportion above one is a refutation"
 ],
 "C49": [
  "proved",
  "second finalize is a refutation"
 ],
 "C51": [
  "proved",
  "generator is abstract; second use of a source is a refutation"
 ],
 "C52": [
  "proved",
  "any CI test that records its answers"
 ],
 "C53": [
  "proved",
  "G-tests composed with IPC-MB and IAMB"
 ],
 "C54": [
  "proved",
  "Model Rcv_Model.v: the text of the token, topic and industry files is parsed character by character; the ID file is what numpy.loadtxt returns. C54_all_documents / C54_industry are the positive statements over rendered files (Rcv_Spec.v); the other five theorems give the failures and the silently ignored '.W' lines."
 ],
 "C55": [
  "proved",
  "Model Bif_Model.v: Transformers.py from blocks on; lark's parsing of the text into blocks is trusted. C55_meaning_of_blocks speaks about arbitrary block lists; C55_joint_distribution composes with C19; the failures are C55_undeclared_variable, C55_missing_distribution(_error), C55_cyclic_file."
 ],
 "C56": [
  "proved",
  "Model Bif_Model.v, section Cache: the steps of read_bif_file that touch the disk. C56_concurrent is the invariant over all histories; C56_stale, C56_torn, C56_kill_while_writing, C56_two_calls and C56_same_stem are the failures, for every parser and file."
 ],
 "C57": [
  "proved",
  "Model CIResult_Model.v; C57_implementations_agree composes with C13. C57_nan, C57_missing_value, C57_not_symmetric, C57_not_transitive and C57_without_omega are the negative parts."
 ],
 "C58": [
  "proved",
  "Model Logs_Model.v. C58_captured_stdout_is_closed and C58_second_run_fails are the negative parts."
 ],
 "C59": [
  "proved",
  "Model Debug_Model.v over GTest_Model.v; C59_debug_tree_tests composes a simulation with the correctness of the G-test (C13). C59_marked_tree, C59_plain (level >= 1) and C59_dcMI_cannot_start are negative results."
 ],
 "C60": [
  "proved",
  "Model Command_Model.v, on top of Experiment_Model, Storage_Model and Select_Model. C60_partial_run_locks_the_rest, C60_any_lock_counts_as_built, C60_lock_by_hand_blocks_the_build and C60_other_lock_does_not_stop_a_run are the surprising parts."
 ],
 "C61": [
  "proved",
  "Model Command_Model.v. C61_shown_index_is_not_the_position is the negative part."
 ],
 "C62": [
  "proved",
  "lark is modelled by a left-to-right parser for this grammar (Earley with the dynamic lexer accepts the same texts: the next character always decides the rule); float() is exact. The model parser was run by vm_compute on five of the BIF files in tests/bif_files and returned the right number of blocks."
 ],
 "C63": [
  "proved",
  "Object-level model (references to lists and matrices); invariant: no object is held twice; refinement to the value model of C36-C39. The aliasing of get_column_labels is stated as two theorems."
 ],
 "C64": [
  "proved",
  "Same object-level model as C63. The mismatch of stale variables is C64_stale_variable_refuted, for every aligned dataset and column."
 ],
 "C65": [
  "proved",
  "Heap model refines the value model of C01-C07 (so its 'no sharing' simplification is now proved for the building code); the independence of a.sum(b) from a is refuted."
 ],
 "C66": [
  "proved",
  "World of trees, dictionaries and objects with references; program = allowed sequences of actions. C66_any_interleaving, C66_as_if_alone, C66_computed_once, C66_no_recomputation, C66_own_lookups; what fails outside the conditions: C66_cached_dof_cannot_share, C66_running_object_cannot_share, C66_counters_of_the_last, C66_dictionary_of_another_dataset, C66_tree_of_another_dataset."
 ],
 "C67": [
  "proved",
  "C67_equal_iff_same_data, C67_equivalence, C67_diff_names/_empty, C67_equal_datasets_behave_alike, C67_lookup_after_any_history, C67_values_per_column and C67_values_suffice_for_trees (through C01). Finding: with a repeated column label only the first column can be reached by label."
 ],
 "C68": [
  "proved",
  "Exact reals for floats; printed output as a list of lines, str() and number formatting are parameters."
 ],
 "C69": [
  "proved",
  "BNObj_Model replays the requests with all caches and a heap of PMF objects; answers are compared with the cache-free functions characterised by C19-C21. Mutation of subnetwork objects handed out, and of rows in place, are not requests of the model."
 ],
 "C70": [
  "proved",
  "Tables over exact reals; properties dict left out."
 ],
 "C71": [
  "proved",
  "Object heaps: dictionaries, lists, runs, datapoints, files; algorithms and evaluators are arbitrary functions of the dataset and the dictionary that may change the dictionary and raise. The refuted theorems: the boundary list is shared, test rows take part in learning the boundary, parameters of one run show in another's datapoint, a failed save keeps the old file."
 ],
 "C72": [
  "proved",
  "Any sequence of processes with crash points; cut-off files stay until a process that loads nothing replaces them; class and threshold of the file win; a file of another table is not noticed (refuted)."
 ],
 "C73": [
  "proved",
  "All three classes under any history; first table wins (cached), last context wins (structural); refuted: the variables in the question matter, the latest table counts."
 ],
 "C74": [
  "proved",
  "Full model of __str__ including the format specifications (padding, round-half-even to d digits). Infinities and negative zero are not modelled."
 ],
 "C75": [
  "proved",
  "Paths are POSIX paths as anchor and parts. Refuted in passing: two different path sets can print the same text (one path below the root, one beside it); a dataset definition that is taken away leaves its folder in the path set."
 ],
 "C76": [
  "proved",
  "Built on the graph model of C22-C26 and the answers of C29/C32; timings left out. Refuted in passing: DSeparationAsCorrelationHeuristic.end() cannot save."
 ],
 "C77": [
  "proved",
  "State-passing version of the AD-tree calls that returns the tree also when the call raises, proved to agree with the model of C01-C04; the invariant of C01 is kept by every call."
 ],
 "C78": [
  "proved",
  "Object with addresses (in-place filling, exceptions half-way). The disk effect of build is proved equal to C42's program. Findings: loading into an object whose matrices are final leaves them in compressed-row format although final (finalize does nothing there); a failed split leaves the new full matrix next to the old test matrix; a failed load mixes new matrices with old labels; load does not restore train_rows, test_rows, total_row_count."
 ],
 "C79": [
  "proved",
  "Interleaving model of the processes with the lock as a semaphore. Findings: mpprint(x) with x not a string raises AttributeError with the lock taken, blocking every later call of every process; mpprint() prints an empty line without the process's mark."
 ],
 "C80": [
  "proved",
  "The wire format, the printed messages and the network are not modelled; requests are taken in the order of delivery. Finding: one unknown or malformed request ends the service for everybody, because the loop has neither an else branch nor a try."
 ],
 "C81": [
  "proved",
  "Floats are reals, files are their contents or missing; which per-run entries the flags add to the output is not modelled. Findings: len(result.Z) is the length of a string; recall is divided by len(true_mb) without the guard that precision has."
 ],
 "C82": [
  "proved",
  "Thresholds are numbers written in decimal; folders are not created. Findings: every run's source_bayesian_network is overwritten with None; preload_ADTrees changes earlier runs before it fails."
 ],
 "C83": [
  "proved",
  "Number parsing and reading of networks are parameters. Finding: arguments.source_type == ['ds'] never holds, so the form of the sample count is never validated."
 ],
 "C84": [
  "proved",
  "Durations are rationals with exact arithmetic, memory sizes are left out, matplotlib is modelled by two facts: it refuses axes of different length and gives the names of a legend to the lines in order. Findings: stale summaries (stored also for a selection by --algrun-tag), one missing file hides all results, wrong names in the legend."
 ],
 "C85": [
  "proved",
  "Programs of reading steps, mkdir and rename on the file system of FS_Model, with rename(2)'s rules. Proved: C85_killed, C85_moved, C85_only, C85_stopped, C85_again (induction over killed runs), C85_found (linked to sub_path, lock_file, datapoint_file, log_file of Experiment_Model), C85_left, C85_plots. Assumes folders where folders should be, a non-empty sub-experiment name, and no lock already at its new place (C85_example_lock_replaced shows that it would be overwritten)."
 ],
 "C86": [
  "proved",
  "Features are code points, a set is the increasing list of its elements, the iteration order of sets is a parameter with only Permutation assumed. Proved: C86_every_test, C86_number, C86_by_size, C86_four, C86_terms, C86_index, C86_report, C86_features, C86_all, by a bijection between the tests that need J and the pairs of features. Not modelled: printing of tests, as_bits, the command line."
 ],
 "C87": [
  "proved",
  "On the tables of CTable_Model. Proved: C87_groups, C87_partition, C87_unknown_column, and the two failures by witness: C87_unsorted_refuted, C87_single_column_refuted. C08_faithful_iff_sorted and C08_set_column_order_is_faithful say when the index matches."
 ],
 "C88": [
  "proved",
  "On the results and the equality of CIResult_Model, floats being reals or nan. Proved: C88_passes, C88_raises, C88_any_two, C88_truncated_refuted, C88_empty_reference_refuted. Not modelled: what is printed before the exception; the lists are taken to share no result objects (they are loaded from different pickles)."
 ]
}