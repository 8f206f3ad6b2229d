# A Rocq (Coq 8.16.1) model of camilbancioiu/mbtk

## Approach

`/repo/mbtk` is modelled function by function in Gallina. Exceptions are values (`res A := Ok a | Err e`, with
one constructor per Python exception class that can be seen by a caller); objects that are mutated in place are
threaded through; loops are structural recursion or folds, and loops and recursions whose termination is itself
a claim take fuel, with a distinguished error `OutOfFuel` (`Base.evaluates f r`: from some fuel on the value is
`r`; `Base.diverges f`: `OutOfFuel` for every fuel, i.e. the Python call never returns). What Python leaves open is a
parameter over which every theorem quantifies: the iteration order of sets, the outcomes of the random module, the
answers of user-supplied CI tests and heuristics (stateful, inconsistent, raising), the chi-square CDF, the point at
which a process is killed, the interleaving of processes.

Files in `rocq/theories/` are grouped by part of the code: `X_Model.v` (definitions, each with the file and lines it
models and its simplifications), `X_Spec.v` (the independent specification: rows of a table, finite probability
spaces, simple paths and Pearl blocking, file-system content, ...; it does not mention the code), `X_Proofs.v`, and
`X_Properties.v` (the theorems named `Cnn_...`, each followed by `Print Assumptions`, and `Cnn_nonvacuous`
examples that exhibit a concrete case meeting the hypotheses). A theorem whose name ends in `_refuted` shows a case
in which a plausible stronger claim is false of the code; the English property says so.

`properties.jsonl` has the English claims, `MANIFEST.json` (generated by `tools/manifest.py`) maps them to theorems,
`ASSUMPTIONS.md` (generated by `tools/assumptions.py`) gives `Print Assumptions` for every theorem,
`seeded/LOG.jsonl` records the wrong programs against which the theorems were tested.

## Per property: what is modelled, how it is proved

| id | modelled | files | proof |
|----|----------|-------|-------|
| C01 | static AD-tree construction and `query_count` over rows of integers | AD_* | induction on tree depth: the count below a node is that of its selected rows; the most common value by subtraction |
| C02 | dynamic tree: lazily added children threaded through every call | AD_* | invariant "each materialised node is the one the data dictate", induction over the call list |
| C03 | `make_contingency_tree`, `subtract_in_place`, `convert_to_dictionary`, `make_pmf` | AD_* | invariant of trees of counts |
| C04 | `__getstate__`/`__setstate__` as erasure of row selections | AD_* | the erased tree answers alike (simulation) |
| C05 | `query` | AD_* | from C01/C02 by counting |
| C06 | leaf-list root | AD_* | direct, for every dataset |
| C07 | ContingencyTree arithmetic | AD_* | induction on trees |
| C08 | ContingencyTable | CTable_* | list induction; refutations by witness |
| C09, C10, C47 | Variable, JointVariables, PMF, CPMF, `flatten` | Key_*, PMF_*, Prob_* | sums over R of multiplicities; a table *is the distribution of* a random variable on a finite space |
| C11 | `create_instances_list` over rationals | Instances_* | integer-part arithmetic |
| C12 | infotheory | Info_*, Prob_* | Gibbs' inequality |
| C13-C16 | three G-tests, DoF calculators, JHT, saved tables, result log | GTest_* | one invariant of the test object, kept by every call; entropy identities |
| C17 | CMICalculator | CMI_* | tables of the network are distributions; refutation by witness |
| C18-C21, C49 | BayesianNetwork: finalize, sampling order, joint and partial joint PMF, sampling | BN_* | measure on unsampled variables; sums over assignments; volumes of boxes of rolls |
| C22-C26 | graphs, path search and its memo, d-separation | Graph_* | induction on unvisited nodes; Pearl's criterion as specification |
| C27-C31, C34, C52 | IPC-MB, IAMB, SetCache, shipped d-separation test and heuristics | MB_*, IPCMB_*, IAMB_*, DSep_*, DAG_Sep_* | loop invariants with arbitrary oracles; separation theory of DAGs |
| C32, C33 | BNCorrelationEstimator, PCMB | DSep_*, PCMB_* | shortest paths; no run of PCMB returns a non-empty list |
| C35 | IGt | IGt_* | stable sort; information identities |
| C36, C37, C39 | DatasetMatrix | Matrix_* | invariants over operation lists |
| C38 | DatasetMatrix save/load, text files | Text_*, FS_*, Storage_* | system-call programs over a file-system model |
| C40, C41 | split, binary trimming | Split_* | permutations, counting |
| C42, C50 | LockablePath, ExperimentalDataset(.Definition), ModelBuilding... | Storage_*, Exds_*, Recovery_* | invariants over all prefixes of the system-call sequence and all interleavings |
| C43, C44 | ExperimentDefinition, ExperimentRun | Experiment_*, Run_Proofs | the same |
| C45, C46 | selection expressions, classifier evaluation | Select_* | direct |
| C48, C51 | binary synthetic source, sampled network source | Sources_* | abstract generator |
| C53 | IPC-MB / IAMB composed with the G-tests and the data-based CMI heuristic | MB_Sim_Proofs, Learn_* | simulation between test objects; C13, C17, C28, C31, C52 |
| C54 | RCV1v2DatasetSource: parsing the token, topic and industry files, the dok matrices | Rcv_* | the files are rendered from a collection of documents; parsing is traced line by line; invariant of the row loop |
| C55 | The BIF transformer: from the blocks of a file to a network (lark's parser stays trusted) | Bif_* | loop invariants of the two passes; reading is invariant under permutation of blocks; composed with C19 |
| C56 | read_bif_file as a step machine with a disk, any number of callers, kills, edits | Bif_Model, BifCache_* | invariant over all histories; refutations by general schedules |
| C57 | CITestResult: setters, variable representation, ==, diff; composed with the G-tests' logs | CIResult_* | case analysis; injectivity of the comma-separated rendering; C13 |
| C58 | the streams an experiment writes to and closes | Logs_* | induction on the lines, the files and the runs |
| C59 | the debug classes: attributes, counters, order of initialization | Debug_* | simulation of the non-debug G-test by induction on the tests; C13 |
| C60 | handle_command and all commands, on the file system model | Command_Model, Command_Properties | case analysis of the dispatch; composition with C42-C45; invariants over every state of a run |
| C61 | tag selection of ExperimentalSetup | Command_Model, Tags_Properties | induction over entries and tags |
| C62 | characters, terminals, rules, literals, properties, composition with C55 | BifText_Model, BifText_Spec, BifText_Proofs, BifText_Properties | parser and token-spelling relation equivalent (soundness and completeness per rule, relative to any rest), append lemma |
| C63 | datasets with object identity: lists and matrices on a heap, several datasets, caller's writes | Heap_Model/Spec/Proofs/Properties.v | separation invariant over any program; refinement to Matrix_Model |
| C64 | variables with lazy loading on the object-level model | Heap_*.v | induction over programs; stale variables refuted in general |
| C65 | Contingency-tree nodes as objects on a heap; the building code of the AD-tree, in-place and copying arithmetic | CTHeap_Model, CTHeap_Spec, CTHeap_Proofs, CTHeap_Properties | footprints and frame lemmas; refinement of the value model by induction on columns / fuel; path-by-path specification |
| C66 | G-test objects sharing trees and entropy dictionaries by reference | Shared_Model, Shared_Spec, Shared_Proofs, Shared_Properties | invariant over all worlds reachable by allowed programs, reusing the one-object step theorem of C13 |
| C67 | read-only methods of DatasetMatrix (==, diff, lookup by label, values per column) | DMQuery_Model.v, DMQuery_Spec.v, DMQuery_Properties.v | equality decided entry by entry against an independent same_data; lookup through the views of C36; insertion of unique values |
| C68 | PMF.__eq__, CPMF.__eq__, pmf_diff, cpmf_diff | PMFEq_Model/Spec/Proofs/Properties | agreement of stored tables; key lookup lemma; sorting of key unions |
| C69 | network object with its caches, cumulative tables, subnetworks sharing distributions, heap of PMFs; histories of requests | BNObj_Model, BNObj_Proofs, BNObj_Properties | invariants over histories (sound caches, valid references), a hit-stability induction over the joint recursion, concrete refutations |
| C70 | distribution objects: equality, copy, finalize, sampling, printing | PD_Model, PD_Properties | dictionary equality by counting keys, frame argument over histories, refutations for conditioned distributions |
| C71 | runs, datapoints and their files as objects over time | RunObj_Model, RunObj_Properties | invariant (references are valid) and induction over histories; frame lemmas per action |
| C72 | AD-tree files across processes: load, build and save, save again at end(), kills at any write | ADFile_Model/Spec/Proofs/Properties | invariant over the files (every complete file holds a correct tree of the table) and over the sequence of processes |
| C73 | calculators as objects: contexts, reset, cache, repeated calculations | DoFObj_Model/Spec/Proofs/Properties | induction over the calls; tables agree up to zeros; first table registered per set of variables |
| C74 | text of a result, padding, rounding, colours, print log | Render_* | splitting at separators that the fields cannot contain; rounding error bound over R |
| C75 | ExperimentalPathSet, update_paths and the printed form | Paths_Model, Paths_Spec, Paths_Properties | induction over the attributes, injectivity of the printed form, induction over the configuration history |
| C76 | sessions with the graph-based test and heuristics, their logs and end() | Oracle_Model, Oracle_Spec, Oracle_Properties | invariant of the shared network object, induction over the session |
| C77 | AD-tree calls that raise, with the half-grown tree they leave, sequences of arbitrary calls | AD_Session_Model, AD_Session_Properties | agreement with AD_Model.v, invariant preserved by every call including the refused ones |
| C78 | dataset objects: attributes, DatasetMatrix objects by address, exceptions half-way | ExdsObj_Model.v, ExdsObj_Proofs.v, ExdsObj_Properties.v | invariant over histories; build refined to C42's program; load step lemmas |
| C79 | mpprint: processes, lock, buffer pieces, kills | MPPrint_Model.v, MPPrint_Properties.v | invariant over all schedules with a ghost log; decreasing measure; orphaned-lock invariant |
| C80 | adtree-server.py: its loop over the AD-tree model | ADServer_Model.v, ADServer_Properties.v | invariant: the tree is one reached by well-formed calls; reduction to the C01-C07 exactness theorems |
| C81 | experiments/experiment_dsep/analysis.py on top of the model of CITestResult | DsepAnalysis_Model.v, DsepAnalysis_Proofs.v, DsepAnalysis_Properties.v | linear functionals of counters, cardinalities of sets, induction over the runs |
| C82 | experiments/experiment_dcmi: definitions.py, algrun_parameters.py, expsetup.py | DcmiRuns_Model.v, DcmiRuns_Properties.v | injectivity of names, induction over the list of runs, invariant of the preloader |
| C83 | experiments/experiment_dsep/expsetup.py, parts of analysis.py and experiment_dcmi/definitions.py | DsepRuns_Model.v, DsepRuns_Properties.v | injectivity of names with fixed vocabularies |
| C84 | experiments/experiment_dcmi/commands.py (summary, plot), plotting.py | DcmiSummary_Model.v, DcmiSummary_Properties.v | sorted lists, invariants of dictionaries, induction over histories and tags |
| C85 | restructure.py: the migration of old dcMI results | Restructure_Model/Spec/Proofs/Properties.v | programs of mkdir/rename steps on FS_Model's file system; an invariant kept at every step (each result at its old or new place), and its composition over killed runs |
| C86 | gtest_enum.py: enumeration of all tests and the use of each joint entropy term | GtestEnum_Model/Spec/Proofs/Count_Proofs/Report_Proofs/Properties.v | completeness and no repetition of the enumeration by combinations; a bijection between pairs of features and the tests needing a term; invariants of the counting dictionaries |
| C87 | ContingencyTable.group_keys_by_columns | CTGroup_Model/Properties.v | invariant of the nested dictionaries over the loop; a row is determined by the values of the listed and the other columns |
| C88 | validate_all_citrs_equal | Validate_Model/Properties.v | induction over the two lists on top of C57's characterisation of ==; triangle inequality for the tolerances |

## Trusted base

* Coq 8.16.1's kernel (no check switched off, no native_compute, no plugins of our own).
* Axioms: none of our own. `Print Assumptions` (see ASSUMPTIONS.md) shows, for theorems that speak of real numbers,
  axioms of the standard library only: `ClassicalDedekindReals.sig_forall_dec`, `ClassicalDedekindReals.sig_not_dec`,
  `FunctionalExtensionality.functional_extensionality_dep`, `Classical_Prop.classic`. All other theorems are
  closed under the global context.
* The reading of Python into Gallina: there is no extraction and no test against the interpreter in this sandbox.
* Behaviour of libraries that the model takes as given: numpy/scipy sparse indexing, boolean masks and
  Matrix Market files (exact round trip of integer matrices), `pickle` (exact round trip; a partly written file
  cannot be read), `str.split/strip/join`, `random` (abstract generator), `scipy.stats.chi2.cdf` (arbitrary
  function), lark (the BIF parser: text to blocks), Python's `sorted` (stable).

## Not modelled

* Floating point: floats are exact reals (or rationals). Rounding, overflow, nan, numpy dtypes that are too small.
* Timing fields, garbage collection, console output other than the streams of an experiment (C58) and the text of test results (C74), other `__str__`/LaTeX, `debug` output.
* The operating system's own caches and non-atomic writes below the level of "created/emptied, then complete".
  Steps reach the disk in program order. Names contain no '/', '.', '..' and are not empty.
* `experiments/`, `demo.py`, `profiling.py`, `adtree-server.py`, `tests/`.
* A user who calls `lock_folder` by hand on incomplete data (C42 excludes it), or mutates the internals of objects.
* After an exception other than InsufficientSamplesForCITest a G-test object's later behaviour.
* Memory exhaustion and Python's recursion limit.

## Findings (claims that turned out false of the code)

1. AD-tree with leaf-list threshold above the row count: every query fails (C06). A value -1 in the data corrupts
   keys of `make_pmf` (C03).
2. `ContingencyTree.sum` drops keys present only on the right (C07); ContingencyTable marginalises the wrong column
   unless columns are sorted, `remove_leftmost_column` overwrites counts (C08).
3. `p()` of a one-variable table produced by `sum_over`/`condition_on`/`create_joint_pmf` answers 0; `sum_over` of a
   single variable raises TypeError (C10, C19, C20).
4. CMICalculator from a network depends on the order of its arguments (C17).
5. `create_instances_list` recurses for ever on an empty table (C11); cyclic networks hang `finalize` (C18); finalizing
   twice makes `create_joint_pmf` hang (C49); recursive sampling raises AttributeError and a roll of exactly 0 can
   select an impossible value (C21); partial joints of sub-networks may raise KeyError (C20).
6. d-separation looks only at direct children of colliders (C25), so IPC-MB with the shipped test returns too much on
   some DAGs (C29); paths memoised for an old graph survive `from_directed_graph` (C23).
7. BNCorrelationEstimator raises for unconnected nodes, so IAMB does (C32); PCMB never returns a boundary (C33).
8. `keep_rows` with an unsorted list mislabels rows (C37); negative column indices desynchronise labels (C36); labels
   with white space or line breaks do not survive save/load (C38); a selection of a final matrix cannot be edited (C39).
9. Preloaded JHT: missing counters raise KeyError, CachedStructuralDoF breaks (C14).
10. Locks: a sibling subexperiment can delete locked data (C43); two processes can both build or both run (C42, C44).
11. Selection '-1' selects nothing (C45); a length-one vector is broadcast in classifier evaluation (C46); IGt's binary
    variant is wrong on non-binary data (C35).
12. Sources: proportions above one give more rows than labels (C48); a used source does not return to its seed (C51).
13. RCV1v2: a one-line ID file, a document without tokens, a document listed twice under an industry all raise; words on a
    line that begins with '.W' are dropped silently (C54).
14. BIF: a variable without a probability block is accepted and breaks finalize with AttributeError; announced value counts
    are never compared with the values; later blocks silently replace earlier ones (C55). The .pickle cache is never
    invalidated, can be torn for ever by a kill, seen half-written by another process, and is shared by files with the
    same stem (C56).
15. CITestResult: == ignores the right-hand tolerances and is not transitive; a nan makes == and diff disagree; a result without statistic raises TypeError on comparison; without the parameter 'omega' the unoptimized test writes another symbol for an empty Z, so its results do not equal those of the other implementations (C57).
16. ExperimentRun hands sys.stdout itself to a MultiFileWriter whose close() closes everything but sys.__stdout__: under contextlib.redirect_stdout (or a test runner's capture) the first run closes the caller's stream, and the experiment fails with ValueError although the run succeeded (C58).
17. Debug classes: the dcMI debug G-test reads self.debug before setting it and cannot be constructed (and its get_joint_entropy_term has no return); the unoptimized one calls accurate() on a bool at level >= 1; the AD-tree one marks a foreign preloaded tree before failing, which breaks every later debug test on it; ADTreeDebug ignores its threshold, its node classes are never used, and its query count is reset by every table, so that 0 is reported (C59).
18. **Running part of an experiment locks all of it** (C60_partial_run_locks_the_rest). `exp run --index 0-3` sets the experiment lock when those runs are done (after_finishing__auto_lock defaults to True), so `exp run --index 4-7` is refused until `exp unlock`; and 'exds build' takes any lock file (`exds lock --type x`, even on an empty folder) as proof that the dataset was built (C60_any_lock_counts_as_built), while `exp lock --type x` does not stop `exp run`.
19. **The index shown is not the index to ask for** (C61_shown_index_is_not_the_position). After filtering by tag, `parameters list` and `datapoints list` print each entry's own 'index', but `--index` counts positions in the filtered list: with runs 0, 1, 2 filtered to 1 and 2, `--index 1` acts on the run shown as [2].
20. BIF text (C62): keywords need no word boundary (networktest{} is accepted); the announced number of values, the lengths of rows and their sums are not checked; a BIF file cut between two blocks is accepted silently (and then cached, C56); comments, which BIF files of other tools may contain, are refused.
21. get_column_labels returns the dataset's own list: kept by a caller, it follows delete_column_X/Y but goes stale after delete_columns_X/Y, which rebinds the attribute (C63).
22. A Variable keeps its column number, not its column: if a column is deleted before the variable's instances are first read, it silently delivers another column's data under the old name (C64).
23. `ContingencyTreeNode.sum` / `subtract` (ContingencyTree.py:69-100) append the left operand's own child objects to the result for every key the right operand lacks: a later `sum_in_place` on the result silently changes the left operand (C65_result_of_sum_is_independent_refuted).
24. C66: G-test objects that share one dictionary of joint entropies overwrite each other's counters: `end()` stores the counters of the object that ends, which were copied when it was constructed, so 'reads' and 'misses' of the others are lost. A preloaded AD-tree of another dataset silently decides with the tree's counts and the object's own declared values.
25. condition_on with one variable left stores its values under 1-tuples, which p() never finds; CPMF.__eq__ compares through p(), so any two such conditional tables with the same keys compare equal whatever their numbers (C68). Tests that compare such tables check only the keys.
26. Assigning to probdist.probabilities of a finalised network has effects that depend on what was asked before: numbers already asked stay cached, so a joint PMF can mix old and new rows and not sum to one; sampling ignores the assignment until a partial joint PMF of a descendant (or the variable itself) is requested, which silently re-finalises the shared distributions of the variable and its ancestors only (C69).
27. ProbabilityDistributionOfVariableNode.__eq__ iterates over the names of the conditioning variables and asks them for .values: two equal conditioned distributions raise AttributeError instead of comparing equal; __str__ of a conditioned distribution fails too (C70).
28. An algorithm run learns the Markov boundary from all rows of the dataset, the test rows its classifier is then evaluated on included (AlgorithmRun.py:35, 75-76; C71_learns_from_training_rows_refuted). Saving the datapoint of a run with a lambda among its parameters raises after the file was emptied: an earlier result of that ID is lost and the experiment stops (ExperimentRun.py:93-94; C71_failed_save_keeps_the_old_file_refuted). The G-tests write 'ci_test_name' into the caller's parameters, so datapoints of later runs on that dictionary name a test they did not use (C71_parameters_are_the_runs_own_refuted).
29. A process killed while saving its AD-tree leaves a cut-off file that every later process with that load path trips over (pickle error in the constructor): the existence of the file is the only check, and the tree is saved without a temporary file (C72_torn_file_stays). A tree file also overrides the class and threshold in the parameters, and is used for whatever dataset the process has (C72_own_data_refuted).
30. StructuralDoF.calculate_DoF ignores its arguments and answers for whatever tables were set last, and CachedStructuralDoF keeps the first table it sees for a set of variables even over reset() and when later tables come from other data (C73_asked_variables_refuted, C73_latest_table_refuted); harmless in the G-tests, which set the context for every test.
31. DSeparationCITest.conditionally_independent and DSeparationAsCorrelationHeuristic.compute set extra_info to an int, and __str__ adds it to a string: every result they have returned raises TypeError when printed later (C74_dsep_results). A fresh CITestResult cannot be printed either. Colour codes shift coloured lines by five characters.
32. ADTree.query(values, given) lets values override given: asked for P(A=0 | A=1) it divides the rows with A=0 by the rows with A=1, which can be above 1, instead of answering 0 (C05_contradiction_refuted).
33. The printed form of a path set is ambiguous: `/a/b/c` and `/a/c` are both shown as `c` under the root `/a/b` (C75_ambiguous_refuted); update_paths keeps the folder of a dataset definition that is no longer there (C75_stale_dataset_refuted).
34. `DSeparationAsCorrelationHeuristic.end()` with `heuristic_results_path__save` opens (and so empties) the file and then raises AttributeError: the attribute `heuristic_results` does not exist (C76_dsep_heuristic_saves_nothing_refuted); `BNCorrelationEstimator` does not log questions answered by 0 (C76_any_session).
35. C78: load() on an object whose matrices are already final replaces their data by CSR matrices and leaves them marked final (finalize() returns at once); a failed split/load leaves a mixture of new and old data in the object.
36. C79: mpprint takes its lock before formatting and without try/finally: an argument that is not a string (AttributeError) leaves the lock taken and blocks all processes for ever.
37. C80: the AD-tree server sends no reply to an unknown request and catches no exception, so a single bad request ends the service for all clients.
38. C81: the 'Avg. cond. set size' and the histogram of experiment_dsep measure the length of the text in CITestResult.Z ('Ω' counts 1, '{3, 12}' counts 7), not the size of the conditioning set; one target with an empty true Markov blanket makes the whole summary fail.
39. C82: in experiment_dcmi every run gets source_bayesian_network=None (algrun_parameters.py:49), so the runs tagged 'dsep' raise AttributeError at their first test; `--preload-adtrees False` is parsed by type=bool as True; the sample count '4e4\n' is accepted.
40. C83: experiment_dsep compares arguments.source_type with ['ds'], so validate_sample_count_string is never called: '40000', '5_00' or ' 4e4 ' are accepted and become part of folder names.
41. C84: 'summary show' stores 'No CI tests found' and shows it (cached) after the results have arrived, and also shows a summary computed under another --algrun-tag; plotting gives the legend name of a tag without results to the next tag's line; the tag 'adtree' always raises KeyError.
42. C85: restructure.py replaces a lock that is already at the new place without a word, while a result folder in the way ends the script with an OSError in the middle; the plots of the old sub-experiments are not moved although expsetup looks for them in the new layout (ExperimentDef.subfolder('plots')); and any file whose name begins with 'locked' is moved as a lock.
43. C86: the formulas of gtest_enum.py are right for all M; in particular every term, whatever its size, is needed by the same number of tests, M(M-1)/2.
44. C87: group_keys_by_columns groups by another column when the columns are not in increasing order, and raises TypeError on a table with a single column left by finalize().
45. C88: validate_all_citrs_equal zips the lists, so an algorithm whose run stopped early (or saved no results) is validated as equal to the reference.
46. Seen while reading, not in a theorem: `LockablePath.delete_folder` uses an attribute that the base class lacks;
    `ModelBuildingExperimentalDataset.save` names an exception it does not import; `command_parameters_show` passes
    the index string where the setup object is expected; `DSeparationAsCorrelationHeuristic.end` refers to a missing
    attribute when a save path is set.
