{"id": "C01", "title": "AD-tree counts are exact", "statement": "ADTree.query_count(values) on a static tree returns exactly the number of dataset rows whose entries agree with every column/value pair of the query (0 for values never seen, or not declared), although the sparse tree stores no node for most-common values or zero counts. On a static or dynamic tree, after any history of calls, a query that mentions a column the dataset lacks is refused (AttributeError or IndexError), unless no row agrees with the rest of it, in which case the answer may also be 0.", "quantifier": "every integer matrix with at least one row, every declared value list per column that is duplicate-free and covers the data, every leaf-list threshold not above the row count, every query over existing columns", "why_tests_cant": "the missing nodes are reconstructed by nested subtraction; tests compare a few fixed datasets and cannot cover all shapes, thresholds and most-common-value ties", "anchors": ["mbtk/structures/ADTree.py:ADTree.query_count", "mbtk/structures/ADTree.py:ADNode.create_Vary_children", "mbtk/structures/ADTree.py:VaryNode.create_AD_children", "mbtk/structures/ADTree.py:VaryNode.discoverMCV", "mbtk/structures/ADTree.py:ADTree.query_count_in_leaf_list_node"]}
{"id": "C02", "title": "Dynamic AD-tree agrees with the data after any query history", "statement": "A DynamicADTree, which materialises nodes only when a query or make_pmf call visits them, returns for every call in any sequence of query_count and make_pmf calls the same answer as counting in the dataset; earlier calls never change later answers. (Tables: if no declared value is -1; see C03.)", "quantifier": "every dataset, threshold, and every finite sequence of count and pmf requests", "why_tests_cant": "correctness depends on the whole history of lazily expanded nodes", "anchors": ["mbtk/structures/DynamicADTree.py:DynamicADNode.get_Vary_child_for_column", "mbtk/structures/ADTree.py:ADTree.query_count"]}
{"id": "C03", "title": "AD-tree PMF is the empirical joint distribution", "statement": "ADTree.make_pmf(variables) assigns to every tuple of values (in increasing variable order) the fraction of rows showing that tuple; the probabilities sum to one and rows-with-zero-count keys have probability zero, whatever the order of the given variables, on a static or dynamic tree after any history of calls, provided no declared value is -1. With a value -1 in the data a key loses a component, because -1 marks the root of a contingency tree.", "quantifier": "every dataset whose values are not -1, every threshold up to the row count, every non-empty duplicate-free list of columns", "why_tests_cant": "contingency trees subtract sibling trees node by node; agreement must hold for every dataset and column subset", "anchors": ["mbtk/structures/ADTree.py:ADTree.make_pmf", "mbtk/structures/ADTree.py:ADNode.make_contingency_tree", "mbtk/structures/ContingencyTree.py:ContingencyTreeNode.subtract_in_place", "mbtk/structures/ContingencyTree.py:ContingencyTreeNode.convert_to_dictionary"]}
{"id": "C04", "title": "Saving and reloading an AD-tree preserves every answer", "statement": "Pickling a tree (which drops the row selections of all inner nodes) and loading it back yields a tree that answers every count and PMF request exactly as before (tables: if no declared value is -1); with leaf-list threshold 0 the answers do not depend on the dataset being kept in memory.", "quantifier": "every tree built from a dataset, every query; for the static and the dynamic variant, at any moment of a query history", "why_tests_cant": "the state that is dropped could be needed by some later query only", "anchors": ["mbtk/structures/ADTree.py:ADNode.__getstate__", "mbtk/structures/ADTree.py:VaryNode.__getstate__", "mbtk/structures/DynamicADTree.py:DynamicADNode.__getstate__"]}
{"id": "C05", "title": "AD-tree conditional probability is the ratio of exact counts", "statement": "ADTree.query(values, given) returns count(given and values)/count(given), between 0 and 1 when values and given do not contradict, obeys the chain rule, and raises ZeroDivisionError exactly when no row matches given. Values asked for take the place of given ones in the same column: on a contradiction the answer is the number of rows that show the values (and the rest of given) over count(given), which may exceed 1.", "quantifier": "every dataset and every pair of queries", "why_tests_cant": "universally quantified ratio of two reconstructed counts", "anchors": ["mbtk/structures/ADTree.py:ADTree.query"]}
{"id": "C06", "title": "Usable leaf-list thresholds", "statement": "A leaf-list threshold up to the number of rows never changes an answer (C01, C02 hold for each of them). With a threshold above the number of rows the tree can still be built, but every non-empty query_count and every make_pmf of at least one variable raises TypeError, because the root is then a leaf-list node without a row selection.", "quantifier": "every dataset, every threshold, every query", "why_tests_cant": "boundary between threshold and dataset size; the failure holds for every dataset of fewer rows than the threshold", "anchors": ["mbtk/structures/ADTree.py:ADNode.__init__", "mbtk/structures/ADTree.py:ADTree.query_count_in_leaf_list_node"]}
{"id": "C07", "title": "Contingency-tree sum and subtraction are pointwise", "statement": "sum, subtract, sum_in_place and subtract_in_place of two contingency trees give, for each key of the left operand, the sum or difference of the two counts (a key missing on the right counts as zero); subtraction of a tree whose keys all occur on the left is exact on every key. A key that occurs only on the right is dropped by a sum, which is therefore not commutative.", "quantifier": "every pair of contingency trees of equal depth", "why_tests_cant": "ranges over all pairs of trees", "anchors": ["mbtk/structures/ContingencyTree.py:ContingencyTreeNode.sum", "mbtk/structures/ContingencyTree.py:ContingencyTreeNode.subtract", "mbtk/structures/ContingencyTree.py:ContingencyTreeNode.sum_in_place", "mbtk/structures/ContingencyTree.py:ContingencyTreeNode.subtract_in_place"]}
{"id": "C08", "title": "Contingency-table operations keep the counts", "statement": "marginalize_column(c) sums, for every remaining key, the counts over all values of the column that stands at the position recorded for c, and leaves the grand total unchanged. After the operations that re-index with sorted columns, the recorded position is that of c for every column if and only if the columns are listed in increasing order; otherwise another column is summed out. marginalize_last_column, prepend/append/insert_column, deduct and append have their intended effect on every proper table; set_column_order keeps every count, but the next marginalisation re-sorts the index. remove_leftmost_column overwrites counts unless the first column is constant.", "quantifier": "every table with distinct columns and keys, every column, value and position", "why_tests_cant": "ranges over all tables, and the failure depends on the column order", "anchors": ["mbtk/structures/ContingencyTable.py:ContingencyTable.marginalize_column", "mbtk/structures/ContingencyTable.py:ContingencyTable.update_columns"]}
{"id": "C09", "title": "PMF of a variable is its empirical distribution", "statement": "PMF(variable).p(v) equals occurrences of v divided by number of instances for every v (0 for unseen values), probabilities are non-negative and sum to one, and for joint variables equals the joint frequencies of the zipped instances. A joint variable made of trivial variables only has no distribution (IndexError).", "quantifier": "every non-empty instance list", "why_tests_cant": "ranges over all data", "anchors": ["mbtk/math/PMF.py:PMF", "mbtk/math/Variable.py:JointVariables"]}
{"id": "C10", "title": "Marginalisation and conditioning of PMFs obey the chain rule", "statement": "For a joint PMF over at least two variables, sum_over(ID) sums out exactly that variable, and condition_on(Z) stores for each value of Z the conditional distribution: entry times the marginal of Z is the joint probability, each conditional table sums to one, values of Z with probability zero give an empty table. Looking a value up with p() agrees with the stored entries unless exactly one variable remains: then p() answers 0 for every value, although items() is right. sum_over on a one-variable PMF raises TypeError. condition_on refuses a table without variables (ValueError), a conditioning variable the table lacks (KeyError), and any conditioning of a one-variable table; everything else it accepts.", "quantifier": "every joint PMF over any number of variables, from data or any finite distribution, every conditioning subset", "why_tests_cant": "ranges over all distributions and variable subsets", "anchors": ["mbtk/math/PMF.py:PMF.sum_over", "mbtk/math/PMF.py:PMF.condition_on", "mbtk/math/PMF.py:CPMF"]}
{"id": "C11", "title": "create_instances_list produces exactly the requested number of instances", "statement": "PMF.create_instances_list(n) on a non-empty PMF returns exactly max(0,n) instances, all of them keys of the PMF; with probabilities summing to one the recursion is at most two deep; if n times each probability is a positive integer the counts are exact; no value is left out in favour of a less likely one. A value of probability zero may be listed. On an empty PMF with n > 0 the recursion never ends. min_instance_count_for_accuracy is one over the smallest non-zero probability, rounded: with that many instances no value of non-zero probability rounds to nothing, and if every probability is a multiple of the smallest, which is 1/N, the count is N and the list is exact; in general it is not.", "quantifier": "every PMF with non-negative rational probabilities and every n", "why_tests_cant": "rounding and recursive remainder handling for all distributions", "anchors": ["mbtk/math/PMF.py:PMF.create_instances_list"]}
{"id": "C12", "title": "Mutual information is symmetric, non-negative, and zero exactly at independence", "statement": "mutual_information and conditional_mutual_information computed from an empirical or exact joint distribution are non-negative, symmetric in X and Y, and zero iff X and Y are (conditionally) independent in that distribution; taking the absolute value at the end therefore changes nothing.", "quantifier": "every finite joint distribution", "why_tests_cant": "real-analysis fact (Gibbs inequality) over all distributions", "anchors": ["mbtk/math/infotheory.py:mutual_information", "mbtk/math/infotheory.py:conditional_mutual_information"]}
{"id": "C13", "title": "The three G-test implementations compute the same statistic", "statement": "For the same data and the same X, Y, Z, the unoptimised G-test, the dcMI G-test (joint-entropy decomposition) and the AD-tree G-test compute, in exact arithmetic, the same G value 2*N*I(X;Y|Z), with the same degrees of freedom, hence return the same verdict (for the AD-tree: if no declared value is -1 and the leaf-list threshold is not above the number of rows). An AD-tree taken over from another test object gives the same answers.", "quantifier": "every dataset, every pair X<>Y and every conditioning set Z, every significance level", "why_tests_cant": "identity between different algorithms that must hold for all data", "anchors": ["mbtk/math/G_test__unoptimized.py:G_test", "mbtk/math/G_test__with_dcMI.py:G_test", "mbtk/math/G_test__with_AD_tree.py:G_test"]}
{"id": "C14", "title": "Joint-entropy cache is transparent", "statement": "Whatever tests were performed before, in whatever order, the dcMI G-test answers as a fresh object does; reads count the entropies asked for, misses exactly the new entries; no entropy is computed twice. A preloaded table of exact entropies with its counters changes no answer; one without counters is refused (KeyError); with CachedStructuralDoF a preloaded entropy makes the test of its variables raise KeyError. Processes that share saved tables, each stopped at any point of a write, either cannot unpickle a damaged file or answer every test right.", "quantifier": "every dataset, every sequence of CI tests, every preloaded table of exact entropies, every sequence of processes and crash points", "why_tests_cant": "depends on the full history of cached entropies and on key canonicalisation by variable set", "anchors": ["mbtk/math/G_test__with_dcMI.py:G_test", "mbtk/math/G_test__with_dcMI.py:JHT"]}
{"id": "C15", "title": "Cached structural degrees of freedom equal the recomputed ones", "statement": "CachedStructuralDoF reports, for every test in every history, the degrees of freedom that StructuralDoF computes from the rows; the structural value is at least 1, at most the unadjusted one, symmetric in X and Y, and independent of the order of Z. Asked about a variable set whose PMF it never saw, it raises KeyError.", "quantifier": "every dataset, every history of tests, each G-test implementation", "why_tests_cant": "history-dependent cache", "anchors": ["mbtk/math/DoFCalculators.py:StructuralDoF", "mbtk/math/DoFCalculators.py:CachedStructuralDoF", "mbtk/math/DoFCalculators.py:UnadjustedDoF"]}
{"id": "C16", "title": "CI-test decision rule and result log", "statement": "A G-test call returns independent iff the chi-square CDF of G is below the significance, raises InsufficientSamplesForCITest iff the sample-sufficiency rule fails, and in all cases appends exactly one result to the log; the indices in the log are consecutive in call order.", "quantifier": "every sequence of test calls, every dataset and significance", "why_tests_cant": "history-dependent log, exception paths", "anchors": ["mbtk/math/G_test__unoptimized.py:G_test.conditionally_independent", "mbtk/math/CITestResult.py:CITestResult"]}
{"id": "C17", "title": "CMI computed from a source Bayesian network", "statement": "CMICalculator computed from a network's exact joint distribution returns I(X;Y|Z), non-negative and zero exactly at conditional independence, whenever the ID of X is below that of Y. With the arguments in the other order the value may be wrong (it is 0 for a network where Y determines X), although I(X;Y|Z) is symmetric. Computed from a dataset it is I(X;Y|Z) in any argument order.", "quantifier": "every finalised network with stochastic tables, every dataset, X, Y, Z", "why_tests_cant": "ranges over all distributions and argument orders", "anchors": ["mbtk/math/CMICalculator.py:CMICalculator.make_pmfs_from_source_bn"]}
{"id": "C18", "title": "Variable sampling order is topological", "statement": "For every acyclic network detect_optimal_variable_sampling_order terminates and lists each variable exactly once, every variable after all of its parents; for a network with a directed cycle it never terminates.", "quantifier": "every finite network", "why_tests_cant": "termination and order over all graphs", "anchors": ["mbtk/structures/BayesianNetwork.py:BayesianNetwork.detect_optimal_variable_sampling_order"]}
{"id": "C19", "title": "Joint PMF of a network is the product distribution", "statement": "create_joint_pmf assigns to each assignment of values the product of the conditional probabilities of the nodes given their parents' values, lists every assignment exactly once, and sums to one if every conditional distribution does; p() finds each of them. (For a network with a single variable p() answers 0, because the keys are one-element tuples.)", "quantifier": "every acyclic network with well-formed probability tables", "why_tests_cant": "ranges over all networks", "anchors": ["mbtk/structures/BayesianNetwork.py:BayesianNetwork.joint_values_and_probabilities", "mbtk/structures/BayesianNetwork.py:BayesianNetwork.create_joint_pmf"]}
{"id": "C20", "title": "Partial joint PMF is the marginal of the full joint", "statement": "create_partial_joint_pmf(variables), which only enumerates the ancestors of the requested variables, equals the full joint PMF with all other variables summed out, for at least two variables and for one non-root variable; for an unknown ID it raises KeyError. For a single root variable p() of the result answers 0 for every value; and asking a subnetwork for a partial joint PMF again may raise KeyError.", "quantifier": "every acyclic network with normalised tables, every variable subset, every set-iteration order", "why_tests_cant": "ranges over all networks and subsets", "anchors": ["mbtk/structures/BayesianNetwork.py:BayesianNetwork.create_partial_joint_pmf", "mbtk/structures/BayesianNetwork.py:BayesianNetwork.get_subnetwork_node_IDs"]}
{"id": "C21", "title": "Sampling draws from the network's distribution", "statement": "A sample assigns a value to each variable, parents before children; the set of rolls in (0,1] leading to a given sample is a box whose volume is exactly the product of the conditional probabilities, i.e. the joint probability of that sample; a sample matrix has one such row per sample. A roll exceeding the last cumulative probability, possible only when a table sums to less than one, is an error. A roll of exactly 0 may select a value of probability zero, and VariableNode.sample in its recursive mode raises AttributeError.", "quantifier": "every finalised network with non-negative tables, every sequence of rolls", "why_tests_cant": "a probability statement over all rolls", "anchors": ["mbtk/structures/BayesianNetwork.py:BayesianNetwork.sample", "mbtk/structures/BayesianNetwork.py:ProbabilityDistribution.sample_roll", "mbtk/structures/BayesianNetwork.py:VariableNode.sample"]}
{"id": "C22", "title": "Path search enumerates exactly the simple paths", "statement": "find_all_directed_paths / find_all_undirected_paths return each simple path between the two nodes exactly once and nothing else; the non-recursive generator yields the same paths in the same order when the end points differ (and not when they are equal).", "quantifier": "every finite graph and pair of nodes", "why_tests_cant": "ranges over all graphs", "anchors": ["mbtk/structures/BayesianNetwork.py:BayesianNetwork.find_all_paths_recursive", "mbtk/structures/BayesianNetwork.py:BayesianNetwork.find_all_paths_recursive_cached", "mbtk/structures/BayesianNetwork.py:BayesianNetwork.find_all_paths_nonrecursive"]}
{"id": "C23", "title": "Path-search memoisation is transparent while the graph is fixed", "statement": "As long as the network's graph is not replaced, the memoised undirected path search returns what the unmemoised search returns, for every history of queries. Once from_directed_graph is called again on the same object, paths cached for the old graph are still returned.", "quantifier": "every graph, every history of path and d-separation queries", "why_tests_cant": "history-dependent cache", "anchors": ["mbtk/structures/BayesianNetwork.py:BayesianNetwork.find_all_paths_recursive_cached", "mbtk/structures/BayesianNetwork.py:BayesianNetwork.from_directed_graph"]}
{"id": "C24", "title": "d-separation verdicts: symmetric, never separate adjacent nodes, never claim connection wrongly", "statement": "d_separated(x,S,y) terminates, equals d_separated(y,S,x), is False for adjacent x,y and for x=y, depends on S only as a set, and whenever it answers False, x and y are truly d-connected given S in Pearl's sense.", "quantifier": "every acyclic graph, nodes and separator set", "why_tests_cant": "ranges over all graphs", "anchors": ["mbtk/structures/BayesianNetwork.py:BayesianNetwork.d_separated", "mbtk/structures/BayesianNetwork.py:BayesianNetwork.is_path_blocked_by_nodes", "mbtk/structures/BayesianNetwork.py:BayesianNetwork.is_node_collider"]}
{"id": "C25", "title": "d-separation verdicts agree with Pearl's criterion when children suffice", "statement": "d_separated(x,S,y) is True iff every path between x and y is blocked by S in Pearl's sense, whenever each collider with a descendant in S is itself in S or has a child in S. Without that proviso there are acyclic graphs in which it says True for d-connected nodes, because only direct children of a collider are examined.", "quantifier": "every acyclic graph, nodes and separator set", "why_tests_cant": "ranges over all graphs; needs a collider with a grandchild in S", "anchors": ["mbtk/structures/BayesianNetwork.py:BayesianNetwork.is_path_blocked_by_nodes"]}
{"id": "C26", "title": "Graph views of a network are consistent", "statement": "as_directed_graph lists for each node exactly its children, sorted; as_undirected_graph is the symmetric closure, sorted and duplicate-free; from_directed_graph derives the same undirected graph from the directed one and gives every mentioned node an entry.", "quantifier": "every network and every directed graph", "why_tests_cant": "ranges over all graphs", "anchors": ["mbtk/structures/BayesianNetwork.py:BayesianNetwork.as_directed_graph", "mbtk/structures/BayesianNetwork.py:BayesianNetwork.as_undirected_graph", "mbtk/structures/BayesianNetwork.py:BayesianNetwork.from_directed_graph"]}
{"id": "C27", "title": "IPC-MB terminates cleanly for any CI test", "statement": "For any outcomes of the CI test, including InsufficientSamples exceptions and inconsistent or stateful answers, and any iteration order of sets, IPC-MB terminates without other error, and returns a sorted duplicate-free list of variables not containing the target; each CI test is asked about distinct variables with a conditioning set not containing them.", "quantifier": "every target, variable set, CI-test behaviour and set-iteration order", "why_tests_cant": "ranges over all oracles and hash orders", "anchors": ["mbtk/algorithms/mb/ipcmb.py:AlgorithmIPCMB.IPCMB", "mbtk/algorithms/mb/ipcmb.py:AlgorithmIPCMB.RecognizePC"]}
{"id": "C28", "title": "IPC-MB returns exactly the Markov boundary given a perfect CI test", "statement": "When the CI test answers d-separation (Pearl) in an acyclic graph over the variables, IPC-MB returns exactly the parents, children and other parents of the children of the target, whatever order sets are iterated in; pc_only returns exactly the parents and children.", "quantifier": "every DAG, every target, every set-iteration order", "why_tests_cant": "correctness theorem of the algorithm over all graphs", "anchors": ["mbtk/algorithms/mb/ipcmb.py:AlgorithmIPCMB"]}
{"id": "C29", "title": "IPC-MB with the library's own d-separation test", "statement": "With the shipped DSeparationCITest (children-only collider rule), pc_only mode returns exactly the parents and children in every DAG; full mode returns a list that contains the whole Markov boundary but, in some DAGs, further variables as well.", "quantifier": "every DAG, target, set-iteration order", "why_tests_cant": "ranges over all graphs", "anchors": ["mbtk/algorithms/mb/ipcmb.py:AlgorithmIPCMB", "mbtk/math/DSeparationCITest.py:DSeparationCITest"]}
{"id": "C30", "title": "IAMB terminates cleanly for any CI test and heuristic", "statement": "For any CI-test outcomes (with exceptions) and any heuristic values, IAMB terminates and returns a sorted duplicate-free list of variables not containing the target; each returned variable was at some point found dependent on the target.", "quantifier": "every oracle, heuristic, target, set-iteration order", "why_tests_cant": "ranges over all oracles", "anchors": ["mbtk/algorithms/mb/iamb.py:AlgorithmIAMB"]}
{"id": "C31", "title": "IAMB returns exactly the Markov boundary given a perfect CI test", "statement": "With a d-separation CI test (Pearl's, and also the library's own) and a heuristic that is positive exactly for dependent candidates (in particular the library's own graph-distance heuristic on a connected network), IAMB returns exactly parents, children and spouses of the target in every DAG.", "quantifier": "every DAG, target, set-iteration order and such heuristic", "why_tests_cant": "correctness theorem over all graphs", "anchors": ["mbtk/algorithms/mb/iamb.py:AlgorithmIAMB.compute_candidate_Markov_boundary", "mbtk/algorithms/mb/iamb.py:AlgorithmIAMB.remove_false_positives_from_Markov_boundary", "mbtk/math/DSeparationCITest.py:DSeparationAsCorrelationHeuristic"]}
{"id": "C32", "title": "Graph-based correlation estimate", "statement": "BNCorrelationEstimator returns 0 if Z is non-empty and separates X from Y by the library's rule, and otherwise the reciprocal of the number of nodes on a shortest path, in (0,1], if X and Y are connected; if they are not connected and Z is empty it raises ValueError. IAMB with this estimator therefore raises ValueError whenever some variable is not connected to the target.", "quantifier": "every network graph, X, Y, Z", "why_tests_cant": "ranges over all graphs", "anchors": ["mbtk/math/BNCorrelationEstimator.py:BNCorrelationEstimator.compute"]}
{"id": "C33", "title": "PCMB never returns a non-empty boundary", "statement": "AlgorithmPCMB.discover_mb always terminates, but a call that returns normally returns the empty list: every other run raises a Python error.", "quantifier": "every deterministic CI test and heuristic, every variable set and target, every set-iteration order", "why_tests_cant": "every run fails", "anchors": ["mbtk/algorithms/mb/pcmb.py:AlgorithmPCMB"]}
{"id": "C34", "title": "SetCache is a map keyed by sets", "statement": "After any sequence of add calls, get(*elements) returns the value of the last add whose elements form the same set (in any order, with repetitions), contains tells whether there is one, and get raises KeyError otherwise.", "quantifier": "every operation sequence", "why_tests_cant": "ranges over histories", "anchors": ["mbtk/algorithms/mb/setcache.py:SetCache"]}
{"id": "C35", "title": "IGt selects the top-Q features by information gain", "statement": "AlgorithmIGt.select_features returns the Q features (all, if there are fewer; for a negative Q all but the last -Q of the ranking) with the largest mutual information with the objective, in non-increasing order, ties broken by lower index; this determines the result. The binary specialisation computes the same value and selects the same features on 0/1 data, and only there.", "quantifier": "every dataset, objective and Q", "why_tests_cant": "ranges over all datasets", "anchors": ["mbtk/algorithms/basic/IGt.py:AlgorithmIGt"]}
{"id": "C36", "title": "Dataset matrix labels stay aligned with the data", "statement": "After any sequence of row/column deletions and selections the number of labels equals the matrix dimensions and each label still names the same original row or column data; a call that raises changes nothing. Proper arguments are needed: a negative index given to delete_columns_X/Y removes a column but not its label, and keep_rows with a missing row raises only after the data were replaced.", "quantifier": "every matrix, every sequence of operations with existing, non-negative indices", "why_tests_cant": "ranges over histories", "anchors": ["mbtk/dataset/DatasetMatrix.py:DatasetMatrix.delete_row", "mbtk/dataset/DatasetMatrix.py:DatasetMatrix.select_rows", "mbtk/dataset/DatasetMatrix.py:DatasetMatrix.select_columns_X", "mbtk/dataset/DatasetMatrix.py:DatasetMatrix.delete_columns_X"]}
{"id": "C37", "title": "keep_rows keeps labels aligned exactly for increasing row lists", "statement": "DatasetMatrix.keep_rows(rows) keeps exactly the rows listed, each once and in their old order, and puts the labels in the order given; the labels therefore match the data if and only if the list is strictly increasing (when rows and labels are distinct).", "quantifier": "every matrix and list of existing rows", "why_tests_cant": "ranges over all row lists", "anchors": ["mbtk/dataset/DatasetMatrix.py:DatasetMatrix.keep_rows"]}
{"id": "C38", "title": "Saving and loading a dataset matrix", "statement": "DatasetMatrix.save followed by load restores the matrices exactly; a list of labels is restored if and only if no label has a line break or surrounding white space and the last label is not empty; save writes only its own files, and load none; saving a matrix that is not finalised is refused; loading into an object that was already finalised leaves the matrices in compressed-row format.", "quantifier": "every matrix, label list and disk state", "why_tests_cant": "ranges over all label lists", "anchors": ["mbtk/dataset/DatasetMatrix.py:DatasetMatrix.save", "mbtk/dataset/DatasetMatrix.py:DatasetMatrix.load"]}
{"id": "C39", "title": "A finalized dataset matrix is immutable", "statement": "After finalize(), every deletion raises DatasetMatrixFinalizedError and leaves the matrix unchanged, for any sequence of attempted deletions and further finalize() calls; finalize() and unfinalize() never change the content, and after unfinalize() deletions work again. A selection taken from a finalised matrix is not final but cannot be edited either (ValueError).", "quantifier": "every matrix and sequence of operations", "why_tests_cant": "ranges over histories", "anchors": ["mbtk/dataset/DatasetMatrix.py:DatasetMatrix.finalize", "mbtk/dataset/DatasetMatrix.py:DatasetMatrix.unfinalize"]}
{"id": "C40", "title": "Train/test split is a partition", "statement": "ModelBuildingExperimentalDataset splits the rows into a train and a test set that are disjoint, cover all rows, have the requested sizes, and keep each row's label, for every random permutation; the split succeeds exactly when both sides get at least one row (otherwise ValueError).", "quantifier": "every dataset, train fraction and random permutation", "why_tests_cant": "ranges over all permutations", "anchors": ["mbtk/dataset/ModelBuildingExperimentalDataset.py:ModelBuildingExperimentalDataset"]}
{"id": "C41", "title": "Binary threshold trimming keeps matrices aligned and within thresholds", "statement": "BinaryExperimentalDataset removes the same columns from the full, training and testing matrices, and afterwards each remaining column has a fraction of ones within the configured bounds in each matrix it was checked on.", "quantifier": "every dataset and thresholds", "why_tests_cant": "ranges over all datasets", "anchors": ["mbtk/dataset/BinaryExperimentalDataset.py:BinaryExperimentalDataset"]}
{"id": "C42", "title": "A dataset that reports itself ready was completely saved", "statement": "If an ExperimentalDataset's folder is locked, all of its matrices were fully written: for every point at which the process may stop during build/save, the lock is absent unless the data are complete, and then loading returns them; saving onto or deleting a locked folder is refused and changes nothing; a concurrent reader sees the lock only with complete data. Two concurrent builders can break this.", "quantifier": "every dataset, disk state and crash point, any one builder with any number of readers", "why_tests_cant": "crash points", "anchors": ["mbtk/dataset/ExperimentalDataset.py:ExperimentalDataset", "mbtk/utilities/LockablePath.py:LockablePath"]}
{"id": "C43", "title": "Locks protect a subexperiment from its own definition", "statement": "A lock that was set is reported, one that was removed is not, and lock/unlock of one lock type of one subexperiment never affects another. A locked subexperiment's folder and subfolders cannot be deleted through its own definition. They can be deleted through a sibling subexperiment: deleting the experiment folder from there removes the locked data and locks.", "quantifier": "every disk state, experiment, subexperiment and lock type", "why_tests_cant": "histories over several subexperiments", "anchors": ["mbtk/utilities/LockablePath.py:LockablePath", "mbtk/experiment/ExperimentDefinition.py:ExperimentDefinition"]}
{"id": "C44", "title": "An experiment runs at most once and each parameter set once in order", "statement": "ExperimentRun.run refuses to run a locked experiment and then starts nothing; a run that completes has performed each non-skipped algorithm run exactly once in order and saved a datapoint for each (with distinct IDs; equal IDs overwrite), and only then sets the lock; at every crash point a lock implies that all runs succeeded and are saved; an exception leaves it unlocked with the earlier datapoints saved; once locked, running again is refused. Two processes started at the same time may both run everything.", "quantifier": "every list of parameter sets, skip set, failing run, and repeated invocations", "why_tests_cant": "crash points and histories", "anchors": ["mbtk/experiment/ExperimentRun.py:ExperimentRun.run"]}
{"id": "C45", "title": "Algorithm-run selection expressions select the intended slice", "statement": "The command-line expression 'k' selects exactly run k, 'a-b' exactly runs a to b inclusive (a third part is ignored), '-k' with k >= 2 the k-th run from the end, no expression selects all; '-1' selects nothing; text with foreign characters raises ValueError.", "quantifier": "every number, range and list of runs", "why_tests_cant": "ranges over all inputs", "anchors": ["mbtk/utilities/experiment.py:get_parameters_index"]}
{"id": "C46", "title": "Classifier evaluation counts every prediction exactly once", "statement": "For vectors of equal length the confusion counts TP, TN, FP, FN of evaluate_classifier_predictions are each exact and add up to the number of predictions; different lengths are refused, except that a vector of length one is compared with every entry of the other. evaluate_classifier fits on the boundary's columns of the training rows and evaluates on the same columns of the test rows; an empty boundary raises ValueError.", "quantifier": "every pair of vectors, every classifier, every dataset and boundary", "why_tests_cant": "ranges over all vectors", "anchors": ["mbtk/experiment/AlgorithmRun.py:AlgorithmRun.evaluate_classifier_predictions"]}
{"id": "C47", "title": "Flattening of nested keys preserves order and content", "statement": "utilities.functions.flatten returns the leaves of a nested list/tuple in order; flattening is idempotent and unaffected by nesting; JointVariables flatten their components the same way.", "quantifier": "every nesting depth", "why_tests_cant": "ranges over all nested structures", "anchors": ["mbtk/utilities/functions.py:flatten", "mbtk/math/PMF.py:process_pmf_key", "mbtk/math/Variable.py:JointVariables"]}
{"id": "C48", "title": "Synthetic and sampled dataset sources have the declared content", "statement": "For row proportions whose product with the row count lies between 0 and the row count, and at least one feature and one objective, the binary synthetic source produces, for any shuffle, X and Y whose columns are labelled by the configured names in alphabetical order and hold only 0 and 1 with exactly int(rows*p) ones, with as many distinct row labels as rows. The sampled-network source puts the objectives into Y and all other variables into X, labels strictly increasing, and every entry is the value index that the sample gives to the variable; with method 'exact' it refuses (ValueError) a number of instances different from sample_count. (A proportion above 1 is not refused: the matrix then has more rows than row labels.)", "quantifier": "every configuration and random behaviour", "why_tests_cant": "ranges over all shuffles", "anchors": ["mbtk/dataset/sources/BinarySyntheticDatasetSource.py:BinarySyntheticDatasetSource", "mbtk/dataset/sources/SampledBayesianNetworkDatasetSource.py:SampledBayesianNetworkDatasetSource"]}
{"id": "C49", "title": "Variable IDs of a finalised network are a bijection by sorted name", "statement": "After finalize, variable IDs are 0..n-1 in the alphabetical order of names, so samples, joint PMFs and graphs refer to the same columns; before finalize every query raises RuntimeError. A second finalize duplicates the sampling order: samples stay the same, but create_joint_pmf no longer ends.", "quantifier": "every network", "why_tests_cant": "ranges over all networks and repeated calls", "anchors": ["mbtk/structures/BayesianNetwork.py:BayesianNetwork.finalize", "mbtk/structures/BayesianNetwork.py:BayesianNetwork.variable_node_names"]}
{"id": "C50", "title": "An interrupted dataset build can be repeated", "statement": "Wherever the process stops during ExperimentalDataset.build (or ModelBuildingExperimentalDataset.build), if the folder did not get its lock then building again completes, locks the folder, and loading gives exactly the second dataset, with nothing left over from the interrupted one.", "quantifier": "every dataset, disk state without obstacles, and every point at which the first build stops", "why_tests_cant": "The set of crash points and of partial disk states is unbounded; a test stops at a few of them.", "anchors": ["mbtk/dataset/ExperimentalDataset.py: build, save, load", "mbtk/dataset/ModelBuildingExperimentalDataset.py: build, save, load", "mbtk/utilities/LockablePath.py"]}
{"id": "C51", "title": "Dataset sources are reproducible from their seed", "statement": "A newly created source, and any source asked for a seed other than -1 and its configured one, produces a dataset that depends only on its configuration and the seed, not on the prior state of the random generator; two new sources with one configuration give equal datasets. (A source that has been used once does not return to its configured seed, not even when that seed is passed explicitly.)", "quantifier": "every configuration, generator, generator state and history of calls", "why_tests_cant": "ranges over all generator states and generators", "anchors": ["mbtk/dataset/sources/BinarySyntheticDatasetSource.py:BinarySyntheticDatasetSource.create_dataset_matrix", "mbtk/dataset/sources/SampledBayesianNetworkDatasetSource.py:SampledBayesianNetworkDatasetSource.create_random_instances"]}
{"id": "C52", "title": "Feature-selection results are explained by the recorded CI tests", "statement": "The list of CI-test results kept by a run explains its outcome. IPC-MB in pc_only mode returns exactly the variables that were tested against the target and for which every test of that pair (in either order) said 'dependent' (an 'independent' or an insufficient-samples outcome excludes the variable). Full IPC-MB returns only variables whose last test with the target said 'dependent', and all of these if no test lacked samples. IAMB returns exactly the variables that were found dependent and not found independent afterwards, and tests only pairs that include the target.", "quantifier": "all CI tests (stateful, inconsistent, raising InsufficientSamplesForCITest at will) that record their answers, all heuristics, all set-iteration orders, all variable sets and targets", "why_tests_cant": "quantifies over every possible sequence of CI answers and iteration orders", "anchors": ["mbtk/algorithms/mb/ipcmb.py:AlgorithmIPCMB", "mbtk/algorithms/mb/iamb.py:AlgorithmIAMB", "mbtk/math/DSeparationCITest.py", "mbtk/math/CITestResult.py"]}
{"id": "C53", "title": "Markov-boundary discovery from data", "statement": "IPC-MB and IAMB (the latter with the conditional mutual information in the data as heuristic), with any of the G-test implementations as CI test, complete on every non-empty dataset; they return variables other than the target in increasing order, and every recorded result is the right G-test of the data (G = 2 N I(X;Y|Z), degrees of freedom, verdict), numbered in the order of testing. The recorded results explain the returned set. Any two G-test implementations with the same kind of degrees of freedom return the same set through the same tests. If the tests tell what is d-separated in some DAG over the variables (for IAMB: and a threshold on the mutual information does too), the returned set is the Markov boundary (in pc_only mode: the parents and children) of the target in that DAG.", "quantifier": "all datasets, parameters (chi-square function, significance, sample criterion), G-test implementations and degrees-of-freedom calculators they accept, set-iteration orders, variable sets and targets", "why_tests_cant": "quantifies over all data tables, graphs and iteration orders, and over the whole unbounded sequence of tests that an algorithm makes", "anchors": ["mbtk/algorithms/mb/ipcmb.py:AlgorithmIPCMB", "mbtk/algorithms/mb/iamb.py:AlgorithmIAMB", "mbtk/math/G_test__unoptimized.py", "mbtk/math/G_test__with_AD_tree.py", "mbtk/math/G_test__with_dcMI.py", "mbtk/math/CMICalculator.py:CMICalculator.compute"]}
{"id": "C54", "title": "RCV1v2 files become the document-term matrix of the selected documents", "statement": "For a well-formed RCV1v2 collection (documents with distinct IDs and lines of words, topic assignments, industry assignments), create_dataset_matrix returns a DatasetMatrix whose rows are the selected documents (all listed IDs, or those of the industry filter) in increasing order of ID with the IDs as row labels, whose X columns are exactly the words of these documents in alphabetical order with X[i,j] the number of occurrences (wordcount), 0/1 presence (binary) or 0 (any other feature type), and whose Y columns are exactly the topics of these documents in alphabetical order with Y[i,j]=1 iff the document is assigned to the topic. A filter other than 'industry' is refused with ValueError; an ID file with exactly one ID fails with TypeError; an ID without tokens fails with KeyError; a document listed twice in the industry fails with IndexError; and any token line starting with '.W' is ignored entirely, including the words on it.", "quantifier": "all collections (any number of documents, lines, words, topics, industries), all selections, configurations, feature types and labels", "why_tests_cant": "the repository's tests read a fixed subset of the published data; alignment of words, counts, topics and rows must hold for every file content, and the failures arise only for particular contents", "anchors": ["mbtk/dataset/sources/RCV1v2DatasetSource.py: RCV1v2DatasetSource.create_dataset_matrix, read_documents, assign_topics_to_documents, create_dok_matrices, RCV1v2Document", "mbtk/utilities/functions.py: create_index"]}
{"id": "C55", "title": "Blocks of a BIF file become the Bayesian network they describe", "statement": "From the blocks of a parsed BIF file, in whatever order they come, the transformer builds the network whose variables are the declared ones, each with the values of its last declaration, the parents (first occurrences, in order) and table (last line per key) of its last probability block; a block that refers to an undeclared variable fails with KeyError. Reading the blocks of a network with complete tables, in any order and with any announced value counts, gives that network up to the order of its variables, and its joint distribution is the product of the tables in the file; a cyclic file never finishes finalize. A variable with no probability block is accepted while reading, but the network cannot be finalised (AttributeError).", "quantifier": "all lists of blocks; all networks with complete tables and all permutations of their blocks", "why_tests_cant": "the repository reads a few fixed networks; block order, repetition and omission range over unboundedly many files", "anchors": ["mbtk/utilities/bif/Transformers.py: variable_block, probability_block, network_definition", "mbtk/structures/BayesianNetwork.py: parse_bif_file, BayesianNetwork.finalize, ProbabilityDistributionOfVariableNode.finalize"]}
{"id": "C56", "title": "Cached reading of BIF files", "statement": "read_bif_file without cache returns what the file says and leaves it in the cache; calls with or without cache, one after another or interleaved in any way and killed anywhere, return what the (unchanged) file says, or fail because the cache file is incomplete. But: after a successful read no change of the BIF file is ever seen by a cached read; a kill during the writing of the cache makes every later cached read fail until someone reads without cache; two concurrent cached reads can fail with no kill at all; and two BIF files whose names differ only in the suffix share a cache, so that the second read returns the first file's network.", "quantifier": "all parsers, file contents, histories of calls, steps, kills and edits", "why_tests_cant": "needs every interleaving and every crash point of an unbounded number of calls", "anchors": ["mbtk/structures/BayesianNetwork.py: read_bif_file"]}
{"id": "C57", "title": "Comparing the results of conditional-independence tests", "statement": "Two CITestResults are == exactly if all compared fields are equal, with statistic and p-value no further apart than the left-hand side's tolerances; diff returns None exactly then (unless a value is nan: then == is False and diff finds nothing), and both raise TypeError exactly on the same results (a result without a statistic cannot be compared with itself). == is reflexive on complete results, symmetric if the tolerances are equal, and neither symmetric otherwise nor transitive. The logged results of any two G-test implementations with the same kind of degrees of freedom on the same tests are pairwise equal, provided the parameter 'omega' is given; without it, the unoptimized test's results with an empty conditioning set differ from the others'. Equal G-test results come from the same X, Y, Z in the same order. Whatever was set before, the last verdict that is set decides which of independent, dependent and insufficient_samples hold, and a logged G-test result carries exactly the index, variables, verdict, statistic, p-value, degrees of freedom and significance of its test.", "quantifier": "all results, tolerances, datasets, test sequences, implementations", "why_tests_cant": "an equality on real values with tolerances over all datasets; the repository compares a few logged runs", "anchors": ["mbtk/math/CITestResult.py: CITestResult.__eq__, diff, get_variable_representation, set_*", "mbtk/math/G_test__unoptimized.py: load_variables, G_test_conditionally_independent", "mbtk/math/G_test__with_AD_tree.py, mbtk/math/G_test__with_dcMI.py: G_test_conditionally_independent"]}
{"id": "C58", "title": "Experiment logs and streams", "statement": "With algorithm_run_log__file, the log file of every started run contains exactly the lines that run printed and is closed, whether the run finishes or raises; the exception that comes out is the run's own. When sys.stdout is the terminal, it stays open, and what an experiment shows there is exactly: the header, for every skipped entry its notice, for every other entry its output (if algorithm_run_log__stdout) and its str(), and the footer (none of the framing if quiet); the first failing run ends the experiment with its exception and leaves the logs of later runs untouched. When sys.stdout has been redirected by the caller, algorithm_run_log__stdout makes the first run close the caller's stream: the experiment then raises ValueError right after the first run, or (if quiet) in the second run even if it prints nothing. Started runs with equal IDs overwrite each other's log.", "quantifier": "all lists of runs, outputs, outcomes, options, stream states", "why_tests_cant": "holds for every sequence of runs and every point of failure; a unit test captures one run's output", "anchors": ["mbtk/experiment/ExperimentRun.py: run, run_algorithm, get_algorithm_run_stdout_destination, print_experiment_run_header/footer", "mbtk/utilities/MultiFileWriter.py: MultiFileWriter.write, flush, close"]}
{"id": "C59", "title": "Debug variants of the AD-tree and the G-tests", "statement": "The debug G-test with a debug AD-tree answers and logs every sequence of tests as the G-test does, at every debug level, for every leaf-list threshold: the debug tree ignores the threshold and has no leaf-list nodes. If counting is on, the i-th result reports exactly the number of tables asked for by the tests so far, and always 0 queries. Given a tree of another class (preloaded or loaded) and level >= 2 its constructor fails with AttributeError, and from then on every debug test with that tree object fails with KeyError, even at level 0. The unoptimized debug G-test logs every result as usual, but at level >= 1 raises AttributeError in place of every verdict. The debug G-test with dcMI cannot be constructed at any level.", "quantifier": "all datasets, test sequences, debug levels, thresholds, tree sources, saved files", "why_tests_cant": "a statement about all test sequences and levels; the repository has no test of the debug classes", "anchors": ["mbtk/structures/debug/ADTree__debug.py: ADTreeDebug", "mbtk/math/debug/G_test__unoptimized__debug.py: G_test_debug", "mbtk/math/debug/G_test__with_AD_tree__debug.py: G_test_debug", "mbtk/math/debug/G_test__with_dcMI__debug.py: G_test_debug"]}
{"id": "C60", "title": "The command line", "statement": "handle_command recognises exactly the fifteen object/verb pairs (paths show, exp-def show, exds-def show, exds show/build/lock/unlock/delete, exp show/run/lock/unlock/delete, parameters list, datapoints list): for those it returns True or raises, for anything else it does nothing and returns False. The showing and listing commands change no file at any moment (exp-def show and datapoints list may create folders, so exp-def show always reports that the folder exists). 'exp run --index i' that completes has started exactly the selected entries that are not skipped, in order, and saved each result; with automatic locking it locks the experiment even if only some entries were selected, so every other selection is then refused; after any sequence of runs of selections each followed by 'exp unlock', exactly the entries covered have their datapoint. Wherever it is stopped, each entry's datapoint is as before, torn, or exactly its run's result. 'datapoints list' shows for every selected entry its saved datapoint, or '(missing)' exactly if there is no file, and stops with an exception at the first torn one; its total counts entries, not datapoints. 'exds build' builds once; after it, build reports 'already built', show shows what was built, delete is refused. Any lock, of any type, even on an empty folder, counts as 'already built'; a lock of another type does not stop 'exp run'.", "quantifier": "every setup, command line, disk state, selection expression and crash point", "why_tests_cant": "ranges over all command lines, histories of commands and crash points", "anchors": ["mbtk/utilities/experiment.py: handle_command, command_exp_run, command_datapoints_list, command_parameters_list, command_exp_def_show, command_exds_build, command_exds_show, command_exds_lock"]}
{"id": "C61", "title": "Choosing algorithm runs by tag", "statement": "filter_algruns_by_tag keeps exactly the entries that have the tag, in order, and changes nothing else; filtering by several tags keeps the entries that have all of them, whatever the order of the tags; an entry without 'tags' makes it raise KeyError and leaves the selection unchanged. is_tag_present_in_any_algrun agrees with filtering, except that it stops at the first entry with the tag and so may answer where filtering raises. After filtering, --index counts positions among the remaining entries while the listings show each entry's own 'index', so the number shown is not the number to ask for.", "quantifier": "every list of entries, tags and sequence of filters", "why_tests_cant": "ranges over all lists and sequences of filters", "anchors": ["mbtk/utilities/experiment.py: ExperimentalSetup.filter_algruns_by_tag, get_algruns_by_tag, is_tag_present_in_any_algrun"]}
{"id": "C62", "title": "The text of a BIF file determines its blocks, independently of layout", "statement": "read_bif_file accepts a text exactly if it is a sequence of network, variable and probability blocks whose tokens are separated by any amount of whitespace (none is needed except to keep a property name apart from its value), names consist of letters, digits, '-' and '_', and probabilities are unsigned decimal literals; the blocks read are the ones written, so a text has one meaning and the layout none. Every list of such blocks can be written. A file followed by another is read as the blocks of both; a file of which only the beginning exists is refused, or (when the cut is between two blocks) read as the first blocks. Texts with other characters outside quoted strings (comments, names like a<b or a.b) are refused. A literal i.f e x denotes (i + f/10^|f|)*10^x, so no probability is negative. Name and properties are those of the last block concerned. Reading any text of a network gives that network and its joint distribution.", "quantifier": "all texts, all lists of blocks, all networks, all cuts of a file, all layouts, all numberings of names", "why_tests_cant": "The set of texts is infinite and the ways to lay out, cut and spell a network are unbounded; tests read seven files.", "anchors": ["mbtk/utilities/bif/Grammar.py: bif_grammar", "mbtk/utilities/bif/Transformers.py: BIFTransformerBasic, BIFTransformerProbabilities.probability_value, BIFTransformerNetwork.network_definition", "mbtk/structures/BayesianNetwork.py: parse_bif_file"]}
{"id": "C63", "title": "Datasets alive at the same time never affect each other", "statement": "select_rows and select_columns_X return datasets that share no list and no matrix with the dataset they come from, and no other call makes two datasets share one. So any program - calls on any of the living datasets, selections, in-place writes by the caller to entries of X and Y and to label lists - shows, dataset by dataset, exactly what it would show if every dataset were a separate value: a dataset changes only by calls on it and writes to it, a selection leaves the old datasets as they are, and the outcome (or exception) of each call is that of the call on the dataset alone. After any program of calls with proper arguments every living dataset shows original rows and columns with their original labels. The list returned by get_column_labels, however, is the dataset's own: it follows a later delete_column_X, but keeps the old labels after delete_columns_X.", "quantifier": "all initial datasets, all programs (any number of datasets, calls, selections, writes, in any order), all datasets", "why_tests_cant": "Sharing shows only in particular interleavings of operations on several objects; the programs are unbounded and every attribute of every pair of objects must stay apart.", "anchors": ["mbtk/dataset/DatasetMatrix.py: select_rows, select_columns_X, delete_row, keep_rows, delete_columns_X, delete_columns_Y, delete_column_X, delete_column_Y, finalize, unfinalize, get_column_labels, delete_rows_cols"]}
{"id": "C64", "title": "Variables taken from a dataset: name fixed at once, data at the first read", "statement": "A Variable obtained with get_variable carries the label its column has at that moment, for ever. Its instances are read from the dataset when first asked for: they are those of the same column number of the dataset as it is then, and from then on they never change, whatever is done to any dataset. So as long as nothing changed the dataset, name and data belong together; but after delete_column_X of its column an unread variable gives the data of the next column under the name of the deleted one.", "quantifier": "all datasets, columns, and programs before and after the first read", "why_tests_cant": "Whether name and data agree depends on the order of reads and changes; the histories are unbounded.", "anchors": ["mbtk/dataset/DatasetMatrix.py: get_variable, get_column_X, get_column_Y", "mbtk/math/Variable.py: Variable.instances, Variable.load_instances"]}
{"id": "C65", "title": "Contingency trees as objects: building shares nothing, in-place arithmetic changes only its own tree, sum/subtract change nothing but share nodes", "statement": "Contingency trees are linked mutable objects. (a) Whatever contingency trees a program already holds, any history of counts, count tables and pickling round trips on an AD-tree gives the exact answers for the dataset and changes none of the existing tree objects; each tree built consists of new objects, each used once. (b) a.sum_in_place(b) / a.subtract_in_place(b) on trees without common objects combine each leaf of a with the count found at the same path in b (paths missing in b stay, paths only in b are ignored), change only objects of a, leave b readable as before, and raise TypeError exactly if a needed count or dictionary is missing somewhere on the common part; the same holds for a.sum_in_place(a). (c) a.sum(b) / a.subtract(b) change no existing object at all, return a tree with those same counts whose node at a path is new if b has that path and is the very node object of a otherwise. Consequently the result is not independent: a later in-place operation on it can change a.", "quantifier": "all datasets, static/dynamic trees, all histories, all heaps of tree nodes, all pairs of trees of any depth and width, any operation on counts", "why_tests_cant": "aliasing only matters after arbitrary later mutations; a test fixes one shape and one order of calls", "anchors": ["mbtk/structures/ContingencyTree.py: ContingencyTreeNode.append_child, add_count_to_leaf, sum, subtract, sum_in_place, subtract_in_place, convert_to_dictionary", "mbtk/structures/ADTree.py: make_contingency_table, make_contingency_tree, make_contingency_tree_from_leaf_list"]}
{"id": "C66", "title": "G-tests alive at once can share an AD-tree or a table of joint entropies", "statement": "G-test objects that were handed the same AD-tree, or the same dictionary of joint entropies for the same data (with counters and without CachedStructuralDoF), may be used in any interleaving: every call answers, and every object logs, what an unshared object would; the shared dictionary stays exact, and each joint entropy is computed once between all its users. Sharing outside these conditions fails in known ways: KeyError with CachedStructuralDoF or with the dictionary of a running object, the statistic of the first dataset when the data differ, and counters of only the object that ended last.", "quantifier": "all datasets, parameters, programs that create any number of trees, dictionaries and test objects, and all interleavings of their tests and endings", "why_tests_cant": "The objects communicate through a mutable tree and a mutable dictionary held by reference; a test that uses one object at a time cannot show that every interleaving of every number of objects leaves every answer unchanged.", "anchors": ["mbtk/math/G_test__with_dcMI.py: prepare_JHT, get_joint_entropy_term, end", "mbtk/math/G_test__with_AD_tree.py: prepare_AD_tree, use_preloaded_AD_tree", "mbtk/math/DoFCalculators.py: CachedStructuralDoF"]}
{"id": "C67", "title": "Equality of datasets, lookup by label, values per column", "statement": "Two datasets are == exactly when they have the same row and column labels and the same entries, whatever their names, storage formats and final flags; == is an equivalence relation, diff prints exactly the names of the differing parts (nothing iff ==), finalize and unfinalize keep a dataset == to itself, and two equal datasets in the same state stay equal under any calls, with equal outcomes. Looking up a column by its (unique) label is stable under any history of deletions, selections and finalisations: it gives the original values of that column for the rows that remain, or ValueError once the column is gone. get_values_per_column lists for every column exactly the values that occur, in increasing order, each once, and these are values with which an AD-tree of the dataset counts exactly.", "quantifier": "all aligned datasets, all histories of row and column operations with proper arguments, all labels, matrix labels and leaf-list thresholds up to the number of rows", "why_tests_cant": "The claims compare arbitrary pairs of datasets and arbitrary operation histories; unit tests compare a few literal matrices.", "anchors": ["mbtk/dataset/DatasetMatrix.py:DatasetMatrix.__eq__", "mbtk/dataset/DatasetMatrix.py:DatasetMatrix.diff", "mbtk/dataset/DatasetMatrix.py:DatasetMatrix.sparse_equal", "mbtk/dataset/DatasetMatrix.py:DatasetMatrix.get_column_by_label", "mbtk/dataset/DatasetMatrix.py:DatasetMatrix.get_values_per_column", "mbtk/dataset/DatasetMatrix.py:DatasetMatrix.get_matrix"]}
{"id": "C68", "title": "Equality of probability tables and the comparison printers", "statement": "PMF.__eq__ and CPMF.__eq__ are reflexive, symmetric and blind to insertion order, but not transitive. For tables made from data, equal means: the same values occur and their relative frequencies differ by at most 1e-10, which is exact equality of frequencies as long as the two data sets have fewer than 10^10 row pairs, and is blurred from 10^10 rows on. A key stored with probability 0 makes tables unequal although p() answers alike everywhere. CPMF equality compares the conditions and the tables under each, except that for tables made by condition_on with a single variable left the numbers are never compared: any two with the same keys are equal. pmf_diff and cpmf_diff list every key of either table once, in increasing order, red exactly when p() differs by more than 1e-10, all lines equally wide; empty tables raise ValueError, and mixing number and tuple keys raises TypeError. Equal tables have no red row.", "quantifier": "every pair of tables, every pair of data variables, every tolerance, every rendering of keys and numbers", "why_tests_cant": "the pairs of tables are unbounded and the interesting cases (near-equal numbers, single-variable conditionals, very large data) are not met by examples", "anchors": ["mbtk/math/PMF.py:PMF.__eq__", "mbtk/math/PMF.py:CPMF.__eq__", "mbtk/math/PMF.py:pmf_diff", "mbtk/math/PMF.py:cpmf_diff", "mbtk/math/PMF.py:PMF.condition_on"]}
{"id": "C69", "title": "A network object asked and edited over time: caches, shared PMFs and stale tables", "statement": "For a finalised BayesianNetwork object: as long as nobody assigns to a probability table or changes a PMF that was handed out, every answer of probability_of_value, create_joint_pmf, get_subnetwork, create_partial_joint_pmf and sample, in any order and with any repetitions, is the one a network without caches gives. Assignments made before the first question are seen by all of them except sample, which keeps using the tables of the last finalize until a subnetwork (or partial joint PMF) containing the variable is made. Asking again in the same way returns the same PMF object with unchanged contents, unless the caller changed it (remove_zeros is then seen by all later callers); different call forms give different objects. Once a joint PMF has been made, later assignments never change what create_joint_pmf answers. Refuted: a joint PMF made after a probability was asked and the table assigned mixes old and new numbers; asking for a partial joint PMF changes what the network samples.", "quantifier": "all finalised networks with distinct names, all sequences of requests (probability, joint PMF in every call form, subnetwork, partial joint PMF, sample with every roll sequence, table assignment, remove_zeros), all fuels and set iteration orders", "why_tests_cant": "Hidden state (five functools caches, the cumulative tables, objects shared between a network and its subnetworks) makes the answer depend on the whole history; tests use a fresh network per assertion.", "anchors": ["mbtk/structures/BayesianNetwork.py: BayesianNetwork.create_joint_pmf, joint_values_and_probabilities, create_partial_joint_pmf, get_subnetwork, finalize, sample", "mbtk/structures/BayesianNetwork.py: VariableNode.probability_of_value, ProbabilityDistributionOfVariableNode.finalize", "mbtk/math/PMF.py: PMF.remove_zeros"]}
{"id": "C70", "title": "Comparing, copying and printing the distribution of a variable", "statement": "== of two ProbabilityDistributionOfVariableNode objects without conditioning variables is True exactly if their tables give the same row for every key; with different numbers of conditioning variables it is False. Refuted: for conditioned distributions it is never True - with equal tables it raises AttributeError, so a distribution cannot even be compared with its own copy - and it looks at the conditioning variables' number only. copy() gives a distribution with the same tables that samples alike; afterwards the two objects never influence each other. Sampling sees an assigned row only after finalize. str() of a conditioned distribution raises AttributeError.", "quantifier": "all distributions (tables over any keys, any conditioning variables), all sequences of copy, finalize and assignment on any number of objects, all rolls", "why_tests_cant": "The comparison walks over dictionary keys and works by accident when tables differ; tests compare fields by hand instead of using ==.", "anchors": ["mbtk/structures/BayesianNetwork.py: ProbabilityDistributionOfVariableNode.__eq__, copy, finalize, create_cummulative_probabilities, sample, __str__"]}
{"id": "C71", "title": "A datapoint is a snapshot of its run, and a saved datapoint is what was seen when it was saved", "statement": "Constructing a run needs 'ID' in the parameters and 'algorithm' (and 'classifier') in the configuration, otherwise KeyError and nothing is made. Running it hands the algorithm the whole dataset and the caller's own dictionary; if the algorithm returns, the run has its answer in a new list and the two times; if it raises, the run keeps what it had except its start time. A run with a classifier finds its boundary first and evaluates on the two parts, AttributeError (boundary kept) if the dataset has none. A datapoint has a new dictionary with the same keys, callables kept and of everything else the text; whatever happens later to the run, its dictionary and everything else, it stays the same, unless its own dictionary or the (shared) boundary list is changed in place. Saving writes exactly what is seen, and loading it, after anything except another save to that file, gives a new datapoint with those contents; saving works if and only if the ID can be pickled and every callable parameter can be imported, and otherwise raises and destroys what the file held.", "quantifier": "all worlds of runs, dictionaries, lists, datapoints and files reachable by any sequence of constructing, running (with any algorithm and evaluator), recording, changing dictionaries and lists in place, saving and loading; all times, parameters and datasets", "why_tests_cant": "Sharing shows only under particular interleavings of later changes; tests look at a datapoint right after it was made, with parameters that pickle.", "anchors": ["mbtk/experiment/AlgorithmRun.py: AlgorithmRun, AlgorithmAndClassifierRun", "mbtk/experiment/AlgorithmRunDatapoint.py: AlgorithmRunDatapoint, AlgorithmAndClassifierRunDatapoint", "mbtk/experiment/ExperimentRun.py: save_algorithm_run_datapoint"]}
{"id": "C72", "title": "AD-tree files shared by successive processes", "statement": "Processes that run one after the other on the same table, each constructing a G-test on an AD-tree with any class and threshold of tree, any degrees-of-freedom calculator and any load and save paths for the tree, and each possibly killed between or in the middle of its writes: every process that can start answers every test with the verdict that the table determines; it cannot start only if an earlier process was killed in the middle of writing the file that it loads. Such a cut-off file is never repaired by processes that load and save at the same path, and is replaced by a process that loads nothing and saves there. Once a file is there its class and threshold are used, whatever the parameters say; and the file of another table makes a process answer for that table.", "quantifier": "all tables, all sequences of processes, all parameters and paths, all tests, all crash points", "why_tests_cant": "The sequence of processes, their paths and crash points are unbounded; unit tests load one file once.", "anchors": ["mbtk/math/G_test__with_AD_tree.py: prepare_AD_tree, load_AD_tree, build_AD_tree, save_AD_tree, end", "mbtk/structures/ADTree.py: __getstate__", "mbtk/structures/DynamicADTree.py: __getstate__"]}
{"id": "C73", "title": "Degrees-of-freedom calculators under any sequence of calls", "statement": "After any sequence of reset, set_context_variables, set_context_cpmfs, set_context_pmfs and calculate_DoF on one calculator: UnadjustedDoF answers from the declared values and the arguments alone; StructuralDoF answers from the tables of the last set_context_cpmfs since the last reset alone (asking repeatedly, which removes zeros in place, changes nothing; without tables it raises AttributeError; the variables named in the question are ignored); CachedStructuralDoF answers for X, Y given Z from the first table of exactly these variables ever handed over, resets and later tables changing nothing, raises KeyError if there was none, and never changes an answer. The calls that a G-test makes give the degrees of freedom that the test uses, whatever the calculator was used for before.", "quantifier": "all calculators, all sequences of calls, all tables and datasets, all variables", "why_tests_cant": "The answers depend on the whole history of the object; unit tests exercise one set of tables per calculator.", "anchors": ["mbtk/math/DoFCalculators.py: UnadjustedDoF, StructuralDoF, CachedStructuralDoF: reset, set_context_variables, set_context_cpmfs, set_context_pmfs, calculate_DoF, cache_DoFs_for_pmf"]}
{"id": "C74", "title": "The printed text of a test result can be read back", "statement": "str(result) of a conditional-independence test result raises nothing but TypeError, and does so exactly if a variable was never set, a number is missing in a result with enough samples, or extra_info is not a string. Two results (with names free of line breaks, escapes, ':', '=', '|' and the signs of a line) that print the same text tell the same story: same number, variables and conditioning order, same verdict, same agreement with the source network, significance to 4 and statistic and p-value to 6 digits. Yellow means too few samples, red means contradicted by the source network, nothing else is coloured, and the colour is switched off at the end of the result. The names of statistic and distribution are in the text, a missing one as None. Without extra information a result is one line, so a printed log determines the sequence of tests that any G-test implementation made. Numbers are rounded to the nearest decimal, and the verdict stands at the same place of every line whose names fit. Results that the d-separation tests have returned cannot be printed.", "quantifier": "all results, names, reals or nan, durations, extra information; all sequences of results of the three G-test implementations", "why_tests_cant": "a test prints a handful of results; that no two different tests can print the same text, for all names, numbers and logs, is injectivity over all values", "anchors": ["mbtk/math/CITestResult.py: CITestResult.__str__, render__sufficient_samples, render__insufficient_samples, accurate, get_variable_representation", "mbtk/utilities/colors.py", "mbtk/math/DSeparationCITest.py: conditionally_independent, compute"]}
{"id": "C75", "title": "The paths of an experimental setup are kept, and shown as promised", "statement": "After any sequence of configuring a root, an experiment and a dataset and calling update_paths, Root and the two repository folders are those of the root given last; update_paths sets Experiment to the folder of the experiment and ExDs to that of the dataset (left as it was if there is none), touches no other path, and without an experiment or a path set raises AttributeError and changes nothing. Printing a path set shows every attribute once, Root first and in full, the others in alphabetical order, names right-aligned to the longest, each path relative to the root if it is below it, else relative to the folder of the root, else in full; it fails only if Root is missing. Two path sets with the same printed form have the same root and the same names, and the same paths if none of them lies in the folder of the root outside the root.", "quantifier": "all path sets and all paths (any depth, absolute or relative), and all sequences of configuration steps and update_paths calls", "why_tests_cant": "The number and names of attributes, the depth of the paths and the configuration history are unbounded.", "anchors": ["mbtk/utilities/experiment.py: ExperimentalPathSet.__init__, __str__, shorten_path; ExperimentalSetup.update_paths; command_paths_show"]}
{"id": "C76", "title": "Tests and heuristics that answer from a known network, in any order of questions", "statement": "A DSeparationCITest, a DSeparationAsCorrelationHeuristic and a BNCorrelationEstimator that share one network answer every question correctly (by the library's separation rule, resp. by the length of a shortest path) whatever was asked of any of them before; each logs exactly the questions put to it, in order, numbered from 0, except that the estimator keeps no record of questions it answers by 0 because of separation. end() writes the log of the test and of the estimator to the save path, if there is one; DSeparationAsCorrelationHeuristic.end() with a save path always raises AttributeError and leaves an empty file.", "quantifier": "all network objects (built from a network or from a graph), all sequences of questions of the three kinds with a known first variable", "why_tests_cant": "The network caches and shares state between the objects, and the number and order of questions are unbounded.", "anchors": ["mbtk/math/DSeparationCITest.py: DSeparationCITest, DSeparationAsCorrelationHeuristic", "mbtk/math/BNCorrelationEstimator.py: BNCorrelationEstimator"]}
{"id": "C77", "title": "Refused calls do an AD-tree no harm", "statement": "In a program that catches exceptions and goes on, an AD-tree (static or dynamic) may be asked anything, in any order: counts of rows for queries about known or unknown columns, tables of counts for any list of columns (unknown, repeated, empty), saving and loading. Whatever raised before, every well-formed call still gets the exact answer, a query about an unknown column is still refused or answered by 0, and a call's outcome is the one the normal call has. A static tree is not changed by any of these calls; a dynamic tree may keep the part that was grown before the exception, and that part is correct.", "quantifier": "all well-formed datasets and thresholds, both kinds of tree, all finite sequences of arbitrary calls", "why_tests_cant": "an exception in the middle of a recursive call leaves a dynamic tree half grown, and only a proof over all sequences covers all half-grown trees", "anchors": ["mbtk/structures/ADTree.py: ADTree.query_count, ADNode.make_contingency_tree", "mbtk/structures/DynamicADTree.py: DynamicADNode.get_Vary_child_for_column"]}
{"id": "C78", "title": "A dataset object shows full, train and test of one build, and load fills it in place", "statement": "For a ModelBuildingExperimentalDataset object: get_datasetmatrix accepts exactly 'full', 'train' and 'test' (ValueError otherwise; all None on a new object). A build that returns shows the source's matrix as 'full' and the split's parts as 'train' and 'test', as new objects, records the row lists and the total, does not change other matrices, and (if saving) has stored all three in a folder that was not locked. After any sequence of build, load, finalize and save, also of calls that raised and with anything happening on the disk in between, the three matrices are different objects labelled dataset, dataset_train and dataset_test, and a final one has both X and Y. load returns exactly if all fifteen files are complete, keeps (fills in place) the matrices the object has, creates the others, and the data and labels are those stored; what one object built and saved any other loads. save returns only if all three are final, and writes nothing if the full one is not. Row lists and total are not restored by load; a failed split or load leaves new and old data mixed.", "quantifier": "every source outcome, fraction, shuffle, state of the disk, prior state of the object and history of calls", "why_tests_cant": "what an object shows depends on the whole history of calls that changed it or raised half-way, on which matrices were already final, and on the disk", "anchors": ["mbtk/dataset/ModelBuildingExperimentalDataset.py: build, finalize, save, load, get_datasetmatrix", "mbtk/dataset/ExperimentalDataset.py: build, finalize, save, load", "mbtk/dataset/DatasetMatrix.py: load, save, finalize"]}
{"id": "C79", "title": "mpprint never mixes the lines of concurrent calls", "statement": "However several processes that print with mpprint are scheduled, in whatever pieces the output buffer is written, and even if processes are killed at any moment, the terminal shows complete calls one after the other followed by at most the beginning of one more; the texts of each process appear in its own order, none skipped and none twice; each line of a text (cut at the line boundaries of Unicode, CR LF being one) is preceded by the mark of its process and followed by a line feed (a text without lines shows one unmarked empty line). If all arguments are strings and nobody is killed there is no deadlock: every step that changes anything brings the end nearer, and when no process can go on everything has been printed. If a process is killed inside mpprint, or mpprint is called with something that is not a string (the exception skips release), nobody ever prints again.", "quantifier": "every number of processes, list of calls of each, schedule, sizes of the pieces written and moments at which processes are killed", "why_tests_cant": "the interleaving is chosen by the operating system; a test sees a few of the schedules and can hardly observe that something never happens again", "anchors": ["mbtk/utilities/mpprint.py: mpprint, prepend_pid"]}
{"id": "C80", "title": "The AD-tree server answers every well-formed request exactly until the first bad one", "statement": "A server started on the pickled AD-tree of a dataset (static or dynamic tree) answers every sequence of well-formed requests, from whichever clients they come, exactly: a query_count request gets the number of rows that match, a make_pmf request gets the empirical distribution of the sorted variables (the keys it leaves out have probability 0), regardless of all requests served before. Answers already given do not depend on later requests. The first request that cannot be answered (an unknown request name, an object that is no pair, a query that raises) gets no reply, and after it no request of any client ever gets one.", "quantifier": "every dataset, static or dynamic tree, every finite sequence of requests in the order in which the socket delivers them", "why_tests_cant": "the tree changes while it answers and the requests come from any number of clients; tests can try only a few sequences", "anchors": ["adtree-server.py: load_AD_tree, main loop", "mbtk/structures/ADTree.py: ADTree.make_pmf, ADTree.query_count"]}
{"id": "C81", "title": "The summary of the d-separation experiment reports what it says, except for the conditioning-set size", "statement": "For every list of runs whose files are complete, the summary command of experiments/experiment_dsep reports the number of CI tests of all runs, how many agree with the network, that fraction in percent (between 0 and 100) and the summed durations; with data it adds up, over the runs, the variables on which the found and the true Markov blanket differ, and averages precision, recall and distance, each lying in [0,1] resp. [0, sqrt 2], distance and errors being 0 exactly if the blankets are equal; the order of the runs is irrelevant; the histogram has one line per occurring value in increasing order with its count and floor(log2 count) signs. 'Avg. cond. set size' is instead the mean length of the text by which a result shows its conditioning set: never less than the mean size of the conditioning sets, and equal to it only if every test had exactly one conditioning variable with a one-digit number. There is no summary at all (an exception) if some target truly has an empty Markov blanket, if a single result does not know what the network says, if a file of results is missing, or if there are no tests; run on the network itself it always shows 0 errors, precision 0 and distance 0.", "quantifier": "every list of runs, their stored results and Markov blankets, both source types", "why_tests_cant": "the numbers aggregate over arbitrarily many runs and results; example data with one-digit variables and one conditioning variable cannot reveal what is averaged", "anchors": ["experiments/experiment_dsep/analysis.py: create_citr_analysis, create_algrun_citr_analysis, create_algrun_mb_analysis, create_condset_size_counter, calculate_condset_average, render_condset_size_histogram", "mbtk/math/CITestResult.py: set_variables, accurate"]}
{"id": "C82", "title": "The runs of the dcMI experiment are complete, do not overwrite one another, and share exactly what is to be shared", "statement": "For every study (repository folder, dataset, written sample count, sample count, number of variables, thresholds), the dcMI experiment defines exactly one run per variable and kind of CI test (d-separation, unoptimized, static and dynamic AD-tree with each threshold, dcMI), numbered in order from 0. No two runs have the same ID, file of CI results or datapoint. Two different runs use the same file only if they use the same kind of test and it is the AD-tree file (loaded from where it is saved), the joint-entropy table or the cache of degrees of freedom; studies with another dataset or another written sample count have no file in common. With thresholds 0, 5 and 10 the default tags divide the runs other than those of d-separation by kind of test. A sample count is accepted iff it is digits, 'e', digits (optionally followed by one line feed). No run knows the network, so runs with the d-separation test cannot answer. Preloading gives every AD-tree run the content of its tree file, one object per file, each file opened once, leaves all other runs as they were, and done again does nothing; at the first missing file it raises with earlier runs already changed and later ones untouched.", "quantifier": "every repository path, dataset, sample count, number of targets, list of thresholds, pair of runs, and content of the tree files", "why_tests_cant": "that names never collide is a property of all numbers and kinds; tests compare a few names of one study", "anchors": ["experiments/experiment_dcmi/algrun_parameters.py", "experiments/experiment_dcmi/definitions.py", "experiments/experiment_dcmi/expsetup.py: get_ADTree_path, preload_ADTrees, validate_sample_count_string, calculate_absolute_LLT, DefaultTags"]}
{"id": "C83", "title": "The d-separation experiments keep their files and datasets apart and compare with the right true Markov blankets", "statement": "Setting up experiment_dsep succeeds iff the algorithm, source type and network are among the allowed ones, the network can be read and, for the source 'ds', a sample count is given that int(float(...)) accepts, whatever its form. It defines one run per variable, in order, tagged by algorithm and network, with the d-separation test for 'bn' and the G-test at 0.95 on the dataset for 'ds'. A file written by two runs, of one or of two experiments, is written by the same run for the same purpose: experiments that differ in root, source type, network, written sample count or algorithm have no file in common. The summary of a 'ds' experiment reads as found blanket the datapoint of the run itself and as true blanket exactly the datapoint that the run of the same target writes in the 'bn' experiment of the same root, network and algorithm, and that no other run writes. A dataset folder determines the file of the network, the sample count and the seed, for both algorithms and also together with the dcMI experiment in the same repository; different sample counts have different seeds.", "quantifier": "every root, algorithm, source type, network, text of the sample count (which may contain separators), number of variables, and pair of runs or experiments", "why_tests_cant": "name collisions and wrong cross-references between experiments depend on all combinations of names, numbers and spellings", "anchors": ["experiments/experiment_dsep/expsetup.py", "experiments/experiment_dsep/analysis.py: create_algrun_mb_analysis, load_mb_from_algrun", "experiments/experiment_dcmi/definitions.py: exds_definition"]}
{"id": "C84", "title": "Summary and plot of the dcMI experiment show the numbers of the stored results, but possibly old ones or under another name", "statement": "If the summary of a tag has numbers, every run with the tag has its CI results stored, and the numbers are theirs: runs, results, total, average, maximum and median duration (at least half of the durations are not above and half not below), results per second; datapoints and total duration are over the stored datapoints only. It says 'No CI tests found' exactly if some run with the tag lacks its results (hiding all others) or there are none. For tags other than dcmi there is no summary exactly if the tag begins with 'adtree' and no analysis of that tree is known (always so for 'adtree', 'adtree-static', 'adtree-dynamic'), or all durations add up to zero. Data of a tree are shown for its own tag only and come from its own file; for 'dcmi' the hits and misses add up to the reads and the hit rate is their quotient. What is shown as not cached is what the present files give, and a refresh shows only that; a stored summary, including 'No CI tests found', is shown unchanged whatever the files have become and whatever commands run in between, until it is refreshed; each stored summary is what the files gave at some command of the history for the runs then selected. The plot has for each tag the durations or their running sums; it fails if a tag's number of results is neither zero nor that of the first tag in sorted order; all tags are named in the legend but only those with results have lines, so if every tag has results the names are right, and after a tag without results the next line carries that tag's name.", "quantifier": "every study, selection of runs, content of the files, list of tags, and history of summary commands with files changing in between", "why_tests_cant": "staleness is about histories, the numbers and the pairing of names with lines about all contents of files", "anchors": ["experiments/experiment_dcmi/commands.py: command_summary_show, create_summary, load_citr, load_datapoints, load_adtrees_analysis, load_jht, load_dof_cache, command_plot_create", "experiments/experiment_dcmi/plotting.py: make_plot_data, plot"]}
{"id": "C85", "title": "Moving old dcMI results to the new layout loses nothing, wherever it is killed, and can be started again", "statement": "restructure.py moves dcMIEvExpII_<sub>/<kind> to dcMIEvExpII/<kind>/<sub> for the eight kinds of results and dcMIEvExpII_<sub>/locked* to dcMIEvExpII/locks/<sub>/. Wherever it is killed, each file and folder is whole at its old or its new place, the results of one kind of one sub-experiment are all at one of them, no result at a new place has been overwritten, and nothing else has changed but for created folders. If no file or non-empty folder is at a new place it ends without an exception and everything has moved to where ExperimentDefinition looks for it (datapoints, logs, locks, other results); killed any number of times at any points and started again it ends with the same. If something is in the way it ends with an OSError, what is in the way and what could not move are as before, and only that stops it. Everything else, such as the plots, stays at the old place.", "quantifier": "every repository (any sub-experiments, any files below them, any order of listing), every kill point, every sequence of killed runs", "why_tests_cant": "it is about every kill point of every sequence of runs over every repository; a test migrates one repository once", "anchors": ["experiments/experiment_dcmi/restructure.py:restructure", "experiments/experiment_dcmi/restructure.py:restructure_subexperiment_folder", "experiments/experiment_dcmi/restructure.py:restructure_subexperiment_locks", "mbtk/experiment/ExperimentDefinition.py:get_lock", "mbtk/utilities/LockablePath.py:subfolder"]}
{"id": "C86", "title": "The enumeration of all CI tests is complete, and its count of tests per joint entropy term is right for every number of features", "statement": "For every finite set of M features, and in whatever order Python walks through its sets, gtest_enum.py yields each conditional independence test (an unordered pair X, Y and a set Z of other features) exactly once: 1/2 M (M-1) 2^(M-2) tests as printed, and M(M-1)/2 times C(M-2, k) with a conditioning set of size k. Each test needs four different joint entropy terms. Each set J of j features is needed by exactly M(M-1)/2 tests: C(M-j, 2) with |Z| = j, j(M-j) with |Z| = j-1, C(j, 2) with |Z| = j-2, and no other. The index holds exactly those tests under J and the counter their number. The flattened summary never fails its assertion or a lookup, has a block for each size 0..M, and every printed count is the true one and equals the expectation printed next to it.", "quantifier": "every M, every finite feature set, every iteration order of the sets, every term J, every size of conditioning set", "why_tests_cant": "the number of tests is exponential in M and the formulas are about all M; a test can enumerate a few small M in one iteration order", "anchors": ["experiments/gtest_enum.py:iter_tests", "experiments/gtest_enum.py:Test.joint_entropy_terms", "experiments/gtest_enum.py:make_jht_index_summary", "experiments/gtest_enum.py:validate_and_flatten_summary", "experiments/gtest_enum.py:expected_jht_count_by_cond_size"]}
{"id": "C87", "title": "Grouping the keys of a contingency table by columns puts each key in exactly one right group", "statement": "For every contingency table with distinct columns, distinct tuple keys and a column index that matches its columns, and every list of its columns, group_keys_by_columns(columns) returns a dictionary from the values of the listed columns to a dictionary from the values of the other columns to the key, in which every key of the table stands exactly once, nothing else stands, no group is empty, and two keys are in one group exactly if they agree on the listed columns. A listed column that the table does not have gives KeyError. With columns out of increasing order the grouping is by the values of other columns, and after finalize() has left a single column it raises TypeError.", "quantifier": "every table, every list of columns (in any order, with repetitions)", "why_tests_cant": "ranges over all tables and lists of columns; a test groups one table by one list", "anchors": ["mbtk/structures/ContingencyTable.py:ContingencyTable.group_keys_by_columns", "mbtk/structures/ContingencyTable.py:ContingencyTable.update_columns"]}
{"id": "C88", "title": "What validating the CI test results of the dcMI study guarantees, and what it does not", "statement": "validate_all_citrs_equal(citr) passes exactly if there are 'unoptimized' results and, for every other algorithm and every position that both lists have, the two results agree in everything, with the statistics no more than 1e-8 and the p-values no more than 1e-9 apart. Two algorithms that have passed then agree with each other within twice that, at every position of the reference that both have. If it raises, it is KeyError without a reference, or there is a test at which some algorithm differs from the reference, all its earlier ones being equal: ValueError, or the exception of comparing the two. Results that are missing at the end of a list are not noticed: whatever passes still passes with the lists of the other algorithms cut off anywhere, and an empty reference passes with everything.", "quantifier": "every collection of CI test results: any algorithms, any lengths, any contents", "why_tests_cant": "ranges over all lists of results; a test validates a few pairs of equal length", "anchors": ["experiments/experiment_dcmi/commands.py:validate_all_citrs_equal", "mbtk/math/CITestResult.py:CITestResult.__eq__"]}
