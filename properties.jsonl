{"id": "C01", "title": "Measurements of one key are an exponential moving average", "statement": "After any sequence of Dataset::insert calls with NaN-free features, the metric held for (features, policy) is the first metric inserted for that key, then folded left with m := 0.5*m + 0.5*new over the later metrics inserted for the same key, in IEEE binary64 arithmetic; keys never inserted are absent, and an insert for one key leaves every other key untouched.", "quantifier": "every finite sequence of inserts, every features vector without NaN, every policy and every binary64 metric", "why_tests_cant": "A test fixes a few sequences; the claim is about every interleaving of inserts to every set of keys, including +0/-0 features that compare equal.", "anchors": ["src/Dataset.cpp: Apollo::Dataset::insert", "include/apollo/Dataset.h: data"]}
{"id": "C02", "title": "A dataset holds one entry per key, in key order", "statement": "After any sequence of inserts, clears and merges, toVectorOfTuples lists each (features, policy) key exactly once in strictly increasing key order, and size() equals the number of distinct keys inserted since the last clear.", "quantifier": "every history of insert, merge and clear operations with NaN-free features", "why_tests_cant": "Needs an invariant over all histories.", "anchors": ["src/Dataset.cpp: size, clear, insert, toVectorOfTuples"]}
{"id": "C03", "title": "The moving average stays inside the range of its measurements", "statement": "For a key whose metrics are all finite, non-negative and either zero or large enough that halving them is exact (at least 2^-1021), the stored metric always lies between the smallest and the largest metric inserted for that key; with metrics below that bound rounding can leave the range.", "quantifier": "every sequence of binary64 metrics within the stated range, of any length", "why_tests_cant": "It is a statement about IEEE rounding over every sequence; samples do not cover rounding corner cases.", "anchors": ["src/Dataset.cpp: Apollo::Dataset::insert (line 38)"]}
{"id": "C04", "title": "The best policy of a features vector minimises the metric, lowest policy index on ties", "statement": "findMinMetricPolicyByFeatures returns each features vector of the dataset exactly once, in increasing order, with aligned features/policies/map outputs; when no stored metric is NaN the policy returned for a features vector has a metric no larger than that of every other policy measured for it, and it is the lowest policy index among those with an equal metric.", "quantifier": "every dataset reachable by inserts with NaN-free features and metrics", "why_tests_cant": "All datasets, all tie patterns.", "anchors": ["src/Dataset.cpp: findMinMetricPolicyByFeatures"]}
{"id": "C05", "title": "A NaN metric on the lowest policy index hides every better policy (defect)", "statement": "There is a reachable dataset in which a features vector has a finite measured metric for one policy and NaN for a lower-numbered one, and findMinMetricPolicyByFeatures returns the policy with the NaN metric.", "quantifier": "existence over datasets reachable by inserts", "why_tests_cant": "Tests do not insert NaN metrics.", "anchors": ["src/Dataset.cpp: findMinMetricPolicyByFeatures (line 71)"]}
{"id": "C06", "title": "Merging datasets", "statement": "Dataset::insert(Dataset&) leaves the source unchanged and gives the destination, for every key, the destination metric averaged (0.5/0.5) with the source metric when both have the key, and otherwise the metric of whichever has it; merging a dataset whose halvings are exact into an equal one changes nothing.", "quantifier": "every pair of reachable datasets", "why_tests_cant": "Ranges over all pairs of datasets.", "anchors": ["src/Dataset.cpp: insert(Apollo::Dataset &)"]}
{"id": "C07", "title": "The tokenizer returns exactly the next whitespace-delimited token", "statement": "For any stream that begins with any amount of whitespace and any number of '#' comment lines, followed by a token of 1 to 63 non-space characters not starting with '#', followed by a whitespace character, getNextToken returns that token and leaves the stream at the delimiting whitespace.", "quantifier": "every stream of that form", "why_tests_cant": "Unbounded strings.", "anchors": ["src/helpers/Parser.cpp: Parser::getNextToken"]}
{"id": "C08", "title": "The tokenizer never writes past its 64-byte buffer", "statement": "For every input stream, getNextToken stores at most 64 bytes including the terminator: a token of 64 or more characters ends in the fatal error, and reading at the end of the stream is the only undefined behaviour it can reach.", "quantifier": "every byte stream", "why_tests_cant": "Memory safety for all inputs.", "anchors": ["src/helpers/Parser.cpp: Parser::getNextToken", "src/helpers/Parser.h: BUFSIZE"]}
{"id": "C09", "title": "Datasets with at most one feature survive a store/load cycle up to printing", "statement": "For a dataset whose records have at most one feature, loading the text written by store into an empty dataset succeeds and yields the dataset obtained by re-inserting every record, in order, with each feature and metric replaced by the value its 6-significant-digit decimal rendering reads back as; it is the identical dataset whenever each number survives that rendering, which all integers below 10^6 in magnitude do.", "quantifier": "every reachable dataset with records of zero or one feature whose numbers print to values in the normal range", "why_tests_cant": "All datasets and all float values.", "anchors": ["src/Dataset.cpp: store, load", "src/helpers/Parser.cpp"]}
{"id": "C10", "title": "Datasets with two or more features cannot be reloaded (defect)", "statement": "For every dataset that contains a record with two or more features, loading the text written by store never succeeds: the process aborts with a parse error (or a token overflow), so a run with APOLLO_PERSISTENT_DATASETS kills the next run of the same region.", "quantifier": "every reachable dataset containing a record with at least two features", "why_tests_cant": "Universal over datasets; existing tests use one feature.", "anchors": ["src/Dataset.cpp: store (line 105), load (lines 141-146)", "src/helpers/Parser.cpp: parseExpected"]}
{"id": "C11", "title": "Space-separated dataset files load for any number of features", "statement": "For every list of records with any number of features, the loader accepts the text in the layout printed by create-dataset.py (each feature followed by a comma and a space) and inserts exactly those records in order.", "quantifier": "every list of records whose numbers print to normal-range values", "why_tests_cant": "Unbounded record counts and feature counts.", "anchors": ["src/Dataset.cpp: load", "src/python/modeling/create-dataset.py: print_to_str"]}
{"id": "C12", "title": "A store/load cycle can merge distinct measurements (defect)", "statement": "There is a reachable one-feature dataset with two different keys such that storing and loading it succeeds and yields a dataset with one key, whose metric is the average of two unrelated measurements.", "quantifier": "existence over reachable datasets", "why_tests_cant": "Needs the exact decimal rendering of binary32 values.", "anchors": ["src/Dataset.cpp: store (lines 105-107)"]}
{"id": "C13", "title": "A truncated dataset file is never accepted", "statement": "If a crash leaves any proper prefix of the text written by store, loading that prefix never completes normally.", "quantifier": "every dataset and every crash point (every proper prefix of the written text)", "why_tests_cant": "Quantifies over every crash point of every file.", "anchors": ["src/Dataset.cpp: store, load", "src/Region.cpp: Region::~Region"]}
{"id": "C14", "title": "Model-selection strings parse to their name and parameters", "statement": "For every model name without commas and every list of key or key=value items without commas (keys without '='), parsing the comma-joined string yields that name and a parameter map in which each key has the value of its first occurrence (empty when it has no '=').", "quantifier": "every name and every list of parameters", "why_tests_cant": "Unbounded strings and parameter lists.", "anchors": ["src/Region.cpp: Region::parsePolicyModel"]}
{"id": "C15", "title": "Unknown parameters are always rejected", "statement": "A model string with at least one parameter is accepted if and only if every parameter key is in the documented set of its model (Static: policy; DecisionTree: max_depth, explore, load, load-dataset; RandomForest: those and num_trees; PolicyNet: lr, beta, beta1, beta2, threshold, load, load-dataset; StaticRegion: any); every other combination aborts.", "quantifier": "every model string", "why_tests_cant": "Unbounded strings.", "anchors": ["src/Region.cpp: validate, parsePolicyModel"]}
{"id": "C16", "title": "Static always returns one in-range policy", "statement": "A region with a Static model whose policy parameter is p >= 0 returns min-checked p: p when p < num_policies and 0 otherwise, on every call and for every features vector; a negative p is refused at construction.", "quantifier": "every p, every num_policies >= 1, every sequence of calls", "why_tests_cant": "All call sequences.", "anchors": ["src/ModelFactory.cpp: createPolicyModel", "src/models/Static.cpp: getIndex"]}
{"id": "C17", "title": "RoundRobin cycles fairly", "statement": "With n >= 1 policies the k-th getIndex call (from 0) returns k mod n whatever the features, so any n consecutive calls return every policy exactly once, and any m consecutive calls return each policy either floor(m/n) or ceil(m/n) times.", "quantifier": "every n >= 1 and every call sequence", "why_tests_cant": "Unbounded call sequences.", "anchors": ["src/models/RoundRobin.cpp: getIndex"]}
{"id": "C18", "title": "Policies returned to the application are in range", "statement": "In a run without the single-model setting that loads no dataset or model files and in which calls name contexts of the region they are made on, every policy returned by getPolicyIndex for a region created with num_policies = n >= 1 and a Static, Random, RoundRobin, DecisionTree, RandomForest or PolicyNet model lies in [0, n), for every history of API calls over all regions, every training moment, every random draw and every completion order of asynchronous timers; in particular RandomForest's range assertion never fires.", "quantifier": "every sequence of API calls, environment events and random draws", "why_tests_cant": "Whole-history safety property.", "anchors": ["src/Region.cpp: getPolicyIndex, collectContext, train", "src/models/*.cpp: getIndex", "src/models/impl/RandomForestImpl.cpp: predict"]}
{"id": "C19", "title": "DecisionTree and RandomForest explore, then exploit, and train once", "statement": "Before its first training a tree/forest region returns exactly what its explorer model returns; a Region::train with data ends that. From then on, without the single-model setting and without forced training, it never consults the explorer again, its answers are a function of the features alone, no call changes it, and (without persistent datasets) no further measurement is recorded for it.", "quantifier": "every history of API calls on the region", "why_tests_cant": "Whole-history property.", "anchors": ["src/models/DecisionTree.cpp: getIndex, train", "src/models/RandomForest.cpp", "src/Region.cpp: train, collectContext"]}
{"id": "C20", "title": "A trained tree respects max_depth and partitions its samples", "statement": "Every tree built by training has depth at most max_depth; each node's sample count is the number of training samples that reach it, an inner node has two children whose samples are a permutation of its own, every sample in the left child has the split feature strictly smaller than every sample in the right child, and both children are non-empty.", "quantifier": "every training set with equal-length NaN-free feature vectors, every max_depth, every behaviour of the unstable sort", "why_tests_cant": "Ranges over all training sets and all sort results allowed by the C++ standard.", "anchors": ["src/models/impl/DecisionTreeImpl.cpp: build_tree, split, compute_gini"]}
{"id": "C21", "title": "Training a tree never fails an assertion", "statement": "Training on a non-empty set of equal-length NaN-free feature vectors in which equal vectors carry equal classes, with at most 1024 classes and at most 2^24 samples, never reaches the 'no split found' assertion nor reads outside a vector, in IEEE binary32 arithmetic.", "quantifier": "every such training set, every max_depth, every admissible sort", "why_tests_cant": "Floating-point worst cases are not reachable by sampling.", "anchors": ["src/models/impl/DecisionTreeImpl.cpp: split, build_tree (assert lines 320, 406)"]}
{"id": "C22", "title": "Every trained tree predicts one constant policy (defect)", "statement": "The leaf constructor reads the class counts after moving them away, so every node of a trained tree is labelled with the smallest class seen: for every training set and every features vector long enough to be evaluated, predict returns the minimum of all classes ever passed to train, not the majority class of the leaf reached.", "quantifier": "every training set, max_depth, features vector", "why_tests_cant": "The existing test only prints PASSED/FAILED for one data set; the claim is universal.", "anchors": ["src/models/impl/DecisionTreeImpl.cpp: Node::Node (lines 227-246)"]}
{"id": "C23", "title": "Tuning by DecisionTree does not find the fastest policy (defect)", "statement": "Whatever was measured, a trained DecisionTree region whose model was not loaded from a file answers every later getPolicyIndex with one and the same policy. Hence there is a one-feature history in which two features have different measured-fastest policies, max_depth is sufficient to separate them, and after training the region returns for one of them a policy that is not its fastest.", "quantifier": "every history; the last part existence", "why_tests_cant": "Follows from an argument about object lifetime, not from any sampled timing.", "anchors": ["src/models/impl/DecisionTreeImpl.cpp: Node::Node", "src/models/DecisionTree.cpp: train"]}
{"id": "C24", "title": "Split thresholds can misroute the samples they separate (defect)", "statement": "The binary32 midpoint threshold chosen between two distinct adjacent feature values l < r always satisfies l <= t <= r when l + r does not overflow, so the right side is always routed right or (t = r) still right; but there are l < r with t = l, for which evaluation sends the left sample to the right child, and there are finite l < r whose sum overflows so t is infinite and the right sample is sent left.", "quantifier": "every pair l < r of finite binary32 values for the bounds; existence for the defects", "why_tests_cant": "Needs exact rounding analysis.", "anchors": ["src/models/impl/DecisionTreeImpl.cpp: split (line 358), evaluate_tree"]}
{"id": "C25", "title": "A saved tree loads back with the same structure", "statement": "Loading the text written by DecisionTreeImpl::save reproduces max_depth, classes, num_features, the tree shape, feature indices, labels, counts and data, with each floating-point number replaced by what its 6-digit rendering reads back as; hence predictions are unchanged whenever all thresholds survive the rendering.", "quantifier": "every tree whose floats print to normal-range values", "why_tests_cant": "All trees of all shapes.", "anchors": ["src/models/impl/DecisionTreeImpl.cpp: output_tree, output_node, parse_tree, parse_node, parse_data"]}
{"id": "C26", "title": "A stored threshold can change a loaded model's decision (defect)", "statement": "There is a tree and a features vector whose prediction differs after save and load because the threshold is written with 6 significant digits.", "quantifier": "existence", "why_tests_cant": "Needs the exact decimal rendering.", "anchors": ["src/models/impl/DecisionTreeImpl.cpp: output_node"]}
{"id": "C27", "title": "RandomForest returns the plurality vote, lowest class on ties", "statement": "predict returns a class whose number of tree votes is maximal, and the smallest such class.", "quantifier": "every forest whose trees vote inside [0, num_classes) and every features vector", "why_tests_cant": "All forests.", "anchors": ["src/models/impl/RandomForestImpl.cpp: predict"]}
{"id": "C28", "title": "RandomForest training is deterministic and forests survive save/load", "statement": "Training forests of equal parameters on equal data adds equal trees (the generator is default-seeded on every call), whatever trees they held before and whatever order std::sort gives equal keys, or fails in the same way; training succeeds on every consistent training set of at most 2^24 samples and 1024 classes; a forest trained once on numbers the text format can carry saves, and loading the file reproduces its trees up to 6-digit rendering and, when every threshold survives that rendering, its prediction on every features vector.", "quantifier": "every training set, parameter choice, admissible sort and random generator", "why_tests_cant": "All data sets.", "anchors": ["src/models/impl/RandomForestImpl.cpp: train, output_rfc, parse_rfc"]}
{"id": "C29", "title": "A retrained forest cannot be reloaded (defect)", "statement": "Training a RandomForest a second time (as Apollo::train does in single-model mode) appends trees without updating the stored count, and the file then saved is rejected by load for every num_trees >= 1.", "quantifier": "every pair of training sets and every num_trees >= 1", "why_tests_cant": "Needs the whole writer/reader pair.", "anchors": ["src/models/impl/RandomForestImpl.cpp: train, output_rfc, parse_rfc", "src/Apollo.cpp: train (single model)"]}
{"id": "C30", "title": "Every finished execution is recorded exactly once", "statement": "For every interleaving of API calls with timer completions, each context passed to end() is collected at most once, contributes exactly one increment of the execution counter and (when the model is trainable or datasets are persistent) exactly one dataset insertion carrying the features set on it, the policy last chosen for it and its own metric; contexts not yet complete stay pending, and destroying the region collects all of them.", "quantifier": "every schedule of begin/setFeature/getPolicyIndex/end calls and asynchronous completions", "why_tests_cant": "All schedules.", "anchors": ["src/Region.cpp: end, collectContext, collectPendingContexts, ~Region"]}
{"id": "C31", "title": "Measurements of a well-behaved synchronous client are attributed correctly", "statement": "For clients that follow begin, setFeature*, getPolicyIndex, end on the synchronous context without nesting a region in itself, on a region that starts with no loaded data, after any number of executions the region's dataset equals the result of inserting, in order, the (features, returned policy, measured time) triples of the executions that ended while the model was trainable or datasets were persistent. The next call of such a client succeeds: begin below 2^31-1 executions, setFeature always, getPolicyIndex when the model answers and policy tracing is off, end when no feature is NaN and no automatic training is configured (or the model is not trainable).", "quantifier": "every such client trace over any number of regions", "why_tests_cant": "Refinement over all traces.", "anchors": ["src/Region.cpp: begin, setFeature, getPolicyIndex, end, collectContext"]}
{"id": "C32", "title": "Forgetting getPolicyIndex records a stale policy (defect)", "statement": "An execution that ends without calling getPolicyIndex on a synchronous context is recorded under the policy of the previous execution of that region (0 initially), whatever the application ran.", "quantifier": "every history ending in such an execution", "why_tests_cant": "History-dependent.", "anchors": ["src/Region.cpp: createRegionContext, collectContext"]}
{"id": "C33", "title": "Collecting an asynchronous context breaks a synchronous execution in flight (defect)", "statement": "There is a schedule in which a region has an execution in flight through the deprecated context-free API, another asynchronous context of the region completes and is collected (for instance by train), and the next context-free call dereferences a null pointer; nested executions of one region through that API do so as well.", "quantifier": "existence over schedules", "why_tests_cant": "Needs a specific interleaving.", "anchors": ["src/Region.cpp: collectContext (line 535), getPolicyIndex(void), end(void), setFeature(float)"]}
{"id": "C34", "title": "Auto-training fires exactly when configured", "statement": "For a trainable model, at the end of a collected execution training of all regions happens if and only if the global period is non-zero and divides the execution count; otherwise training of this region happens if and only if the per-region period is non-zero and divides the region's begin count, or min_training_data > 0 distinct measurements have been recorded; a non-trainable model never auto-trains, and auto-training never collects pending contexts.", "quantifier": "every configuration and history", "why_tests_cant": "All configurations and histories.", "anchors": ["src/Region.cpp: autoTrain", "src/Apollo.cpp: train"]}
{"id": "C35", "title": "Execution indices count begin calls", "statement": "The i-th begin() on a region (from 0) gives its context index i, and the reported total of region executions equals the number of collected contexts over all regions.", "quantifier": "every history, below the integer ranges", "why_tests_cant": "All histories.", "anchors": ["src/Region.cpp: begin, collectContext", "src/Apollo.cpp: ~Apollo"]}
{"id": "C36", "title": "Region names are truncated to 63 characters and only the first region of a name is registered (defect)", "statement": "A region created under a name whose first 63 characters equal those of an existing region is not registered: Apollo::train never trains it and Apollo's destruction never persists its dataset, while the first one is unaffected.", "quantifier": "every history of region creations", "why_tests_cant": "All names and histories.", "anchors": ["src/Region.cpp: Region::Region (lines 266, 402)", "src/Apollo.cpp: train, ~Apollo"]}
{"id": "C37", "title": "Destroying one region switches off periodic training for all and leaves a dangling registration (defect)", "statement": "After any region is destroyed the global training period is 0 for every other region, and a later Apollo::train over a registry still holding the destroyed region is a use after free.", "quantifier": "every history with a region destruction", "why_tests_cant": "History-dependent global effect.", "anchors": ["src/Region.cpp: ~Region (line 410)", "src/Apollo.cpp: train, ~Apollo"]}
{"id": "C38", "title": "Configuration is consistent after start-up", "statement": "If the runtime starts, exactly one of collective/local training and exactly one of single/region modelling is enabled, collective training is enabled only in an MPI build, and every setting is the value of its environment variable or its default, and the directories and trace file it asks for have been made; every other environment stops the process.", "quantifier": "every environment", "why_tests_cant": "All environments.", "anchors": ["src/Apollo.cpp: Apollo::Apollo, safeGetEnv"]}
{"id": "C39", "title": "MPI measurement packing round-trips", "statement": "Unpacking the concatenation of all ranks' packed buffers yields every rank's measurements exactly (rank, features, policy, 64-byte region name, metric) in the order of the ranks, provided each record has as many features as its region declares, the sizes fit in an int and MPI_Pack_size is exact.", "quantifier": "every faithful MPI library and every set of regions, datasets and ranks", "why_tests_cant": "Unbounded buffers.", "anchors": ["src/Apollo.cpp: packMeasurements, gatherCollectiveTrainingData, get_mpi_pack_measure_size"]}
{"id": "C40", "title": "Collective training merges every other rank's data and only that", "statement": "After the gather, each local region's dataset is its own dataset with the measurements of the same-named region of every other rank inserted in rank order; measurements of its own rank are not inserted twice, regions unknown locally are ignored, nothing else changes, and under the conditions of C39 gathering returns.", "quantifier": "every number of ranks and every dataset", "why_tests_cant": "All rank counts and contents.", "anchors": ["src/Apollo.cpp: gatherCollectiveTrainingData"]}
{"id": "C41", "title": "Ranks can disagree after collective training (defect)", "statement": "There are three ranks and one shared key for which the gathered metrics differ between ranks, and for which the ranks then select different best policies.", "quantifier": "existence", "why_tests_cant": "Needs the exact order-dependence of the moving average.", "anchors": ["src/Apollo.cpp: gatherCollectiveTrainingData", "src/Dataset.cpp: insert"]}
{"id": "C42", "title": "Policy network outputs are a probability distribution", "statement": "In real arithmetic, the forward pass returns for every network, every input and every batch row num_policies positive numbers that sum to 1, and subtracting the row maximum does not change them.", "quantifier": "all weights, inputs, sizes", "why_tests_cant": "Real-analysis property over all weights.", "anchors": ["src/models/PolicyNet.cpp: Softmax::forward, Net::forward"]}
{"id": "C43", "title": "Policy network gradients are the true policy gradient", "statement": "In real arithmetic, whenever no hidden unit sits exactly at the corner of the rectifier, the gradients computed by the backward pass pair with every direction of the parameters (all weights and biases of the three layers) to the derivative in that direction of the mean over the batch of reward times log-probability of the chosen action.", "quantifier": "all weights, inputs, actions, rewards, sizes", "why_tests_cant": "Analytic identity over all parameters.", "anchors": ["src/models/PolicyNet.cpp: Softmax::lossGrad, FCLayer::backward, ReLU::backward"]}
{"id": "C44", "title": "The reward baseline is a weighted average of batch rewards", "statement": "In real arithmetic with 0 <= beta < 1, after k >= 1 training calls the debiased baseline is a convex combination of the k batch mean rewards, so it lies between their minimum and maximum.", "quantifier": "every sequence of batches", "why_tests_cant": "Unbounded sequences.", "anchors": ["src/models/PolicyNet.cpp: trainNet (lines 485-493)"]}
{"id": "C45", "title": "Cached action probabilities equal a fresh evaluation", "statement": "Between loads, whatever sequence of getIndex and train calls is made, the probabilities getIndex samples from equal those the current network would compute for those features.", "quantifier": "every sequence of getIndex and train calls", "why_tests_cant": "Cache coherence over all histories.", "anchors": ["src/models/PolicyNet.cpp: getIndex, train"]}
{"id": "C46", "title": "Loading a network keeps stale cached probabilities (defect)", "statement": "There is a history in which load replaces the weights and the next getIndex samples from probabilities of the old network.", "quantifier": "existence over histories", "why_tests_cant": "History-dependent.", "anchors": ["src/models/PolicyNet.cpp: load, getIndex"]}
{"id": "C47", "title": "Feature encoding is injective on integer parts", "statement": "Two features vectors with values in (-1, 2^64) have the same network input, and the same cache key, if and only if they have equal integer parts componentwise (so equal lengths); evaluating or training on any other value is undefined behaviour.", "quantifier": "all pairs of features vectors", "why_tests_cant": "Unbounded domain.", "anchors": ["src/models/PolicyNet.cpp: getIndex, train"]}
{"id": "C48", "title": "A stored network loads back bit for bit", "statement": "Loading the file written by store into a network of the same shape restores all weights, biases, the reward average and the training count exactly; moments, counters, cache and settings stay those of the loading object; a truncated file is accepted silently, restores exactly the parameters all of whose bytes are present and leaves those none of whose bytes are present as they were.", "quantifier": "all networks, all file prefixes", "why_tests_cant": "All byte contents.", "anchors": ["src/models/PolicyNet.cpp: store, load"]}
{"id": "C49", "title": "Optimal replays its file", "statement": "For a policy file with comma-separated integers, the k-th getIndex call returns the k-th integer, and the call after the last aborts.", "quantifier": "every list of integers and number of calls", "why_tests_cant": "Unbounded.", "anchors": ["src/models/Optimal.cpp: Optimal::load, Optimal::getIndex (lines 14-51)"]}
{"id": "C50", "title": "DatasetMap returns the measured best policy", "statement": "For a trained DatasetMap, getIndex on features present in the dataset returns their best policy (lowest index on ties) and aborts on every other features vector.", "quantifier": "every dataset with NaN-free values and every features vector", "why_tests_cant": "All datasets.", "anchors": ["src/models/DatasetMap.cpp"]}
{"id": "C51", "title": "Models are loaded from where they were stored", "statement": "For every trainable model, rank, region name and directory setting, the 'latest' file written after training is the file that the load parameter without a value opens.", "quantifier": "every name, rank and directory", "why_tests_cant": "Unbounded strings.", "anchors": ["src/Region.cpp: train (lines 94-99), Region (lines 296-308)"]}
{"id": "C52", "title": "Generated tree code agrees with the interpreter when thresholds have six digits", "statement": "The C++ source generated for a tree in which every inner node has both children (as in every trained tree) is well formed and returns, for every features vector, what evaluate_tree returns, provided each split threshold is exactly a number of at most six significant decimal digits. It is not enough that the threshold reads back as the same float, because the generated literal is a double: there is such a tree whose generated code decides differently. For every inner node with only a left child the generated function falls off its end on the other side, and for every inner node with only a right child the generated text is not a well-formed program.", "quantifier": "every tree and features vector", "why_tests_cant": "All trees; JIT is compiled out of the test builds.", "anchors": ["src/models/impl/DecisionTreeImpl.cpp: generate_source, evaluate_tree"]}
{"id": "C53", "title": "Kokkos tuning choices cover the candidate space exactly once", "statement": "When the product of the candidate set sizes is the region's policy count, the map from policy index to the tuple of candidate indices is a bijection between [0, product) and the tuples of in-range indices.", "quantifier": "every list of positive set sizes", "why_tests_cant": "Unbounded.", "anchors": ["src/connectors/kokkos/kokkos-connector.cpp: kokkosp_request_values"]}
{"id": "C54", "title": "Kokkos integer ranges produce values outside the declared range (defect)", "statement": "For every closed integer range with positive step, the candidates generated start one step above the declared lower bound, never include it, and the last candidate exceeds the upper bound; for every range with open lower bound the excluded bound itself is a candidate.", "quantifier": "every integer range with positive step and at least one element", "why_tests_cant": "All ranges.", "anchors": ["src/connectors/kokkos/kokkos-connector.cpp: count_range_slices, form_set_from_range"]}
{"id": "C55", "title": "Kokkos runs abort once a model has been stored (defect)", "statement": "If the model file the connector looks for exists, the region is created with that path as its model string, and region creation aborts for every path.", "quantifier": "every tuning problem", "why_tests_cant": "Universal over names.", "anchors": ["src/connectors/kokkos/kokkos-connector.cpp: kokkosp_request_values (lines 548-553)", "src/Region.cpp: Region", "src/ModelFactory.cpp"]}
{"id": "C56", "title": "Reading a dataset file always terminates", "statement": "For every byte stream, Dataset::load ends: it returns, throws, aborts or reads past the end of the stream; it never loops forever, because every record and every feature consumes at least one character.", "quantifier": "every byte stream and every initial dataset", "why_tests_cant": "All byte streams; a hang cannot be observed by finite testing.", "anchors": ["src/Dataset.cpp: load", "src/helpers/Parser.cpp"]}
{"id": "C57", "title": "A dataset with a subnormal number cannot be reloaded (defect)", "statement": "There is a reachable one-feature dataset, whose feature is a positive subnormal float, such that loading the text written by store throws std::out_of_range.", "quantifier": "existence over reachable datasets", "why_tests_cant": "Corner of the float range.", "anchors": ["src/Dataset.cpp: store, load", "src/helpers/Parser.cpp: parse<float>"]}
{"id": "C58", "title": "A trained tree depends only on the multiset of its samples", "statement": "Training from the same state on two lists of equal-length NaN-free samples that are permutations of each other, with any two sorting algorithms that arrange equal keys differently, ends the same way: both succeed with the same tree (thresholds bit for bit), classes and number of features, or both fail in the same way.", "quantifier": "every training set, every permutation of it, every pair of admissible sorts, every state reached by earlier trainings", "why_tests_cant": "std::sort is unstable and its tie order differs between standard libraries; no test can range over all of them.", "anchors": ["src/models/impl/DecisionTreeImpl.cpp: split, build_tree, train"]}
{"id": "C59", "title": "A trained tree can always be saved", "statement": "Whenever DecisionTreeImpl::train returns, whatever the earlier state of the object, save writes the tree without reading past the end of any per-class count vector.", "quantifier": "every state, every sample set on which training returns, every admissible sort", "why_tests_cant": "All histories; the counts of a node must cover every class ever seen.", "anchors": ["src/models/impl/DecisionTreeImpl.cpp: train, output_node, save"]}
{"id": "C60", "title": "The policy network does not check the number of features (defect)", "statement": "On a new network for F features, a features vector with fewer values makes getIndex read past the end of the input (undefined behaviour), and one with extra values gets the probabilities of its first F values.", "quantifier": "every size, weights, number type, features vector", "why_tests_cant": "All sizes and values; the overread is silent.", "anchors": ["src/models/PolicyNet.cpp: getIndex, FCLayer::forward"]}
{"id": "C61", "title": "A threshold above 1 switches the policy network off", "statement": "In real arithmetic, with 0 <= beta < 1, threshold > 1 and nonnegative metrics, whatever sequence of getIndex and train calls is made, getIndex always answers policy 0 and training never changes the network.", "quantifier": "every history of uses, all settings and weights", "why_tests_cant": "Unbounded histories.", "anchors": ["src/models/PolicyNet.cpp: trainNet (lines 485-500), getIndex (lines 534-541)"]}
{"id": "C62", "title": "The first training step is an ascent step of known size", "statement": "In real arithmetic, the first training step of a new network moves every weight and bias by learning_rate * g / (|g| + 1e-8), where g is its gradient; the move has nonnegative inner product with the gradient, so to first order training never lowers the objective.", "quantifier": "all weights, inputs, actions, rewards, sizes, betas in [0,1)", "why_tests_cant": "Analytic identity over all parameters.", "anchors": ["src/models/PolicyNet.cpp: FCLayer::step, Net::trainStep"]}
{"id": "C63", "title": "Within its sizes the policy network never leaves its arrays", "statement": "Starting from a new network for F features and N > 0 policies, any history of up to 2^31-1 getIndex and train calls whose features vectors have F values in (-1, 2^64) and whose measured policies are in [0, N) ends normally: no out-of-range access, no undefined conversion, no signed overflow, in any number type (NaN and infinity included).", "quantifier": "every history, size, number type, initial weights, settings", "why_tests_cant": "Unbounded histories and values.", "anchors": ["src/models/PolicyNet.cpp: all of train, trainNet, getIndex, Net, FCLayer, ReLU, Softmax"]}
{"id": "C64", "title": "Network training is the Adam method on the policy gradient", "statement": "In real arithmetic, after any number of training steps of a new network every weight and bias equals its initial value plus the sum of the textbook Adam moves (learning rate times bias-corrected weighted average of its past gradients, over the root of the bias-corrected weighted average of their squares plus 1e-8). PolicyNet::train makes one such step, with one sample per stored entry (bits of the integer parts, policy, exp(-metric) minus the new baseline), unless the dataset is empty or the new baseline is below the threshold, when the network is left alone.", "quantifier": "every sequence of batches, all sizes, weights, settings", "why_tests_cant": "Unbounded sequences over all parameters.", "anchors": ["src/models/PolicyNet.cpp: train, trainNet, Net::trainStep, FCLayer::step"]}
{"id": "C65", "title": "The CSV trace has one line per measurement", "statement": "With CSV tracing on, the trace of a region is its header followed by exactly one line for each measurement taken for that region, in the order they were taken, with the rank, index, region name, model name, features, policy and time of that measurement; with it off nothing is written.", "quantifier": "every history and configuration", "why_tests_cant": "All histories.", "anchors": ["src/Region.cpp: Region::Region (lines 382-398), collectContext (lines 517-524)"]}
{"id": "C66", "title": "A single model for all regions returns policies a region does not have (defect)", "statement": "The code assumes, in a comment, that all regions have the same number of policies, and nothing checks it. With APOLLO_SINGLE_MODEL on, Apollo::train trains every registered region, trainable or not, on the merged measurements of all of them and changes no dataset. So a DecisionTree region with 2 policies can return policy 2, the fastest policy of another region, and a RandomForest region fails its assertion on the range.", "quantifier": "every history; existence for the two failures", "why_tests_cant": "Needs regions with different numbers of policies; the out-of-range answer is silent.", "anchors": ["src/Apollo.cpp: train (lines 486-499)", "src/models/impl/RandomForestImpl.cpp: predict"]}
{"id": "C67", "title": "Every run of the Kokkos connector is a run of the runtime", "statement": "Each call of the connector leads to a fixed sequence of calls of the runtime, given by the calls made before: declarations lead to none, the first request of a problem creates a region, every request begins a synchronous execution, sets the context features in order and asks for a policy, the end of an open context ends the execution and the end that reaches the flush rate trains everything.", "quantifier": "every history of connector calls, every settings, files and flush rate", "why_tests_cant": "Unbounded histories; a refinement statement.", "anchors": ["src/connectors/kokkos/kokkos-connector.cpp: kokkosp_declare_output_type, kokkosp_declare_input_type, kokkosp_request_values, kokkosp_end_context"]}
{"id": "C68", "title": "A Kokkos flush trains every problem still exploring", "statement": "At the end of a context that reaches the flush rate, without training periods and without the single-model setting, every region still trainable is trained on its data including the measurement just ended, except those whose (63-character) name an earlier region has; no other model changes.", "quantifier": "every history of connector calls", "why_tests_cant": "Unbounded histories.", "anchors": ["src/connectors/kokkos/kokkos-connector.cpp: kokkosp_end_context", "src/Apollo.cpp: train"]}
{"id": "C69", "title": "Kokkos contexts of one problem are mixed up (defect)", "statement": "The end of a context records for its problem the features and the policy of the last request of that problem, and the time since that request, whichever context the request was made for; but if a context of that problem was ended since that request, it records no features at all, since keeping the earlier measurement moved them away. So of two nested contexts of one problem the outer one's time is lost, no measurement spans it, and its end adds a measurement without features.", "quantifier": "every history of connector calls that reaches the end of an open context", "why_tests_cant": "Needs nested contexts of the same problem; the wrong time is silent.", "anchors": ["src/connectors/kokkos/kokkos-connector.cpp: kokkosp_request_values, kokkosp_end_context", "src/Region.cpp: begin, end"]}
{"id": "C70", "title": "What the Kokkos connector starts with", "statement": "Whatever the environment says, the connector starts the runtime storing models and tracing the best policies, with one model per region, training locally, never retraining; the policy model, directories, periods and persistence are those of the environment. Parsing command line arguments is undefined unless all of --disable_retrain, --distributed-training and --trace are among them (the spellings of the help text are not enough), and when it is defined the arguments other than the flush rate have no effect: the environment ends up the same. Of the arguments with --flush-rate= anywhere in them the last one sets the flush rate, to the number after its first '=', or 0 where there is none.", "quantifier": "every environment and list of arguments", "why_tests_cant": "All environments and argument lists; getopt-style errors are silent.", "anchors": ["src/connectors/kokkos/kokkos-connector.cpp: kokkosp_init_library, kokkosp_parse_args"]}
{"id": "C71", "title": "Static models answer one policy", "statement": "With the setting Static,policy=p, a region without a model of its own always gets policy p if it has that policy and policy 0 otherwise; and with the setting the Kokkos connector defaults to (Static,policy=0) every request writes the first candidate of every variable.", "quantifier": "every history, every p in int", "why_tests_cant": "Unbounded histories.", "anchors": ["src/Region.cpp: Region, getPolicyIndex", "src/models/Static.cpp", "src/connectors/kokkos/kokkos-connector.cpp: kokkosp_request_values"]}
{"id": "C72", "title": "Kokkos requests that are undefined (defect)", "statement": "A request with a variable declared as an input, as an unbounded output or as an empty set divides by zero; a request with a range of strings or a range of integers with swapped ends never returns values; a request with more than 50 variables overruns the stack buffer of candidates; the first request of a problem with a variable whose name has 64 characters or more uses an unterminated name.", "quantifier": "every history, every such request", "why_tests_cant": "The undefined cases are silent in most runs.", "anchors": ["src/connectors/kokkos/kokkos-connector.cpp: kokkosp_request_values, kokkosp_declare_output_type"]}
{"id": "C73", "title": "A Kokkos flush rate of 0 breaks every end of context (defect)", "statement": "With a flush rate of 0, which is what atoi makes of a text that is not a number, no end of an open context returns normally: the remainder by zero is undefined.", "quantifier": "every history with flush rate 0", "why_tests_cant": "All histories.", "anchors": ["src/connectors/kokkos/kokkos-connector.cpp: kokkosp_parse_args, kokkosp_end_context"]}
{"id": "C74", "title": "Kokkos flushes are undefined for string contexts (defect)", "statement": "The connector turns on the trace of best policies, which converts every feature to int. A flush ending a context whose problem's last request, with no end of a context of that problem since, had a context value that does not fit in an int (as the hash of a string does not, in general) never returns normally.", "quantifier": "every history and hash function", "why_tests_cant": "Depends on the hash; the conversion is undefined but silent.", "anchors": ["src/connectors/kokkos/kokkos-connector.cpp: kokkosp_request_values, kokkosp_end_context", "src/Region.cpp: train (lines 53-77)"]}
{"id": "C75", "title": "Kokkos floating-point ranges ignore their bounds (defect)", "statement": "For a range of doubles with step 0 the candidates are 100 times the same value. For one with integer bounds L < U and integer step s > 0 (all at most 2^50 in size), whatever bounds are declared open, the candidates are exactly L + k*s for 0 <= k < (U-L)/s (rounded down), the first one moved by epsilon only for a range closed below at L = 0: so a bound declared open is included, the largest member of a closed range is always missed, and there is no candidate at all if s > U - L.", "quantifier": "every such range", "why_tests_cant": "All ranges and rounding errors.", "anchors": ["src/connectors/kokkos/kokkos-connector.cpp: count_range_slices, form_set_from_range"]}
{"id": "C76", "title": "The runtime only writes its own files", "statement": "Whatever calls are made, no file is removed, and only files with the names of models, datasets, traces and run information are created or changed.", "quantifier": "every history, configuration and initial set of files", "why_tests_cant": "Unbounded histories.", "anchors": ["src/Region.cpp: train, ~Region", "src/Apollo.cpp: ~Apollo", "src/Region.cpp: getPolicyIndex"]}
{"id": "C77", "title": "Traces are undefined for large features (defect)", "statement": "With the trace of the best policies on, training a region holding a feature that is not finite or does not fit in an int is undefined behaviour; with the trace of the policies on, asking for a policy with such a feature is.", "quantifier": "every history and every such feature", "why_tests_cant": "Undefined conversion is silent.", "anchors": ["src/Region.cpp: train (lines 53-77), getPolicyIndex (lines 116-151)"]}
{"id": "C78", "title": "Gathering works only if every buffer is exactly filled (defect)", "statement": "With any MPI library that unpacks what it packed, gathering returns normally only if the measurements of every registered region take exactly the bytes that MPI_Pack_size gave for its declared number of features. It therefore never returns normally when some region's measurements have a total number of features other than declared, nor when MPI_Pack_size asks for more bytes than packing takes (which the MPI standard allows) for a region with measurements: the remaining bytes are read although never written, or the library stops the program.", "quantifier": "every MPI library, every set of ranks and datasets", "why_tests_cant": "Depends on the library; silent when it happens to read stale bytes.", "anchors": ["src/Apollo.cpp: gatherCollectiveTrainingData, packMeasurements, get_mpi_pack_measure_size"]}
{"id": "C79", "title": "Two ranks agree after gathering", "statement": "A key (region name, features, policy) measured at most twice over all ranks has the same metric on every rank that has the region after gathering.", "quantifier": "every job, rank pair and key", "why_tests_cant": "All jobs; floating-point addition of two halves is commutative but the average of three is not.", "anchors": ["src/Apollo.cpp: gatherCollectiveTrainingData, packMeasurements", "src/Dataset.cpp: insert"]}
{"id": "C80", "title": "Gathered metrics stay between those of the ranks", "statement": "After gathering, on every rank with the region, the metric of a key is finite and between the least and the greatest the ranks had for it, if these are finite and 0 or at least 2^-1021 in size.", "quantifier": "every job, rank and key", "why_tests_cant": "All orders and roundings.", "anchors": ["src/Apollo.cpp: gatherCollectiveTrainingData, packMeasurements", "src/Dataset.cpp: insert"]}
{"id": "C81", "title": "Collective training can choose a policy the region does not have (defect)", "statement": "There is a job in which two ranks create a region of one name with different numbers of policies and, after collective training, the region with two policies is told to use policy 2.", "quantifier": "existence", "why_tests_cant": "Needs the combination of gathering and tree training.", "anchors": ["src/Apollo.cpp: gatherCollectiveTrainingData, packMeasurements", "src/Region.cpp: train, getPolicyIndex"]}
{"id": "C82", "title": "Executions pending on a device are not shared by collective training (defect)", "statement": "There is a job in which a measurement complete on a device before collective training is used by its own rank (which collects it after the exchange) and by no other.", "quantifier": "existence", "why_tests_cant": "Depends on the moment a device finishes.", "anchors": ["src/Apollo.cpp: gatherCollectiveTrainingData, packMeasurements", "src/Apollo.cpp: train (lines 487-529)", "src/Region.cpp: collectPendingContexts"]}
{"id": "C83", "title": "Clients that keep to the rules never break the runtime", "statement": "With one model per region trained locally, no retraining and no data kept between runs: a client making fewer than 2^24 calls that creates regions with a documented model string (nothing loaded, at most 1024 policies), uses only regions it created and contexts it began and has not ended, gives each execution as many features as the region has before asking for a policy or ending (no NaN; within int when traced; within uint64 when a network may be used), trains and collects whenever it likes, with asynchronous timers completing at any time, never reaches undefined behaviour, an abort or an exception; and the runtime can be shut down when nothing is pending.", "quantifier": "every such client, whatever it does with the answers it gets, every environment setting within these, sorter, generator and clock", "why_tests_cant": "Crash freedom over all client programs and interleavings of completions.", "anchors": ["src/Region.cpp: all functions", "src/Apollo.cpp: train, ~Apollo", "src/models/*.cpp"]}
{"id": "C84", "title": "Data sets kept between runs come back only with at most one feature (defect)", "statement": "With persistent data sets: a shutdown with nothing pending leaves, for each region name, the data of the first region of that name in the file of that name, and a destroyed region leaves its data including those of its pending executions. A region created later with that file present starts from it: with at most one feature per entry it has the same data, with metrics and features as printed; if some entry has two features or more its creation never succeeds, and with a well-formed model string it aborts the program.", "quantifier": "every run, settings, region, platform, and every later run finding the file", "why_tests_cant": "Needs two runs, all data and all float values; with one feature the tests pass.", "anchors": ["src/Region.cpp: Region (lines 316-330), ~Region (lines 408-424)", "src/Dataset.cpp: store, load"]}
{"id": "C85", "title": "The bundled test program reports FAILED (defect)", "statement": "With one model per region trained locally, no retraining and no data kept between runs (the settings of an empty environment are such), the program test/apollo-test.cpp runs without fault and, of the 64 executions of its second iteration, exactly 16 get the policy that matches the feature, so it prints FAILED.", "quantifier": "every such setting, clock, sorter, generator and set of files", "why_tests_cant": "The outcome must hold for every timing; it is the test itself that is examined.", "anchors": ["test/apollo-test.cpp: main (lines 32-96)", "src/models/impl/DecisionTreeImpl.cpp: Node::Node", "src/Apollo.cpp: Apollo (lines 125-168)"]}
{"id": "C86", "title": "The trace of gathering lists what every rank sent, and is undefined for features that do not fit in an int (defect)", "statement": "A rank with APOLLO_TRACE_ALLGATHER writes, for every rank in order, every region by name and every measurement by key, a line with the rank, the name, the features without their fractions, the policy and the metric, to step-<step>-rank-<rank>-allgather.txt, and changes no other file. Gathering returns if no feature measured anywhere in the job is NaN, infinite or out of the range of an int; if one is, on any rank, gathering has undefined behaviour as soon as one rank traces.", "quantifier": "every job, MPI library that unpacks what it packed, and settings", "why_tests_cant": "Text for all data of all ranks; the undefined case depends on data of other ranks.", "anchors": ["src/Apollo.cpp: gatherCollectiveTrainingData, packMeasurements", "src/Apollo.cpp: gatherCollectiveTrainingData (lines 396-463)"]}
{"id": "C87", "title": "Kokkos kernels are fenced only until the next training (defect)", "statement": "A kernel's device is fenced at its begin and end exactly if a tuning problem was met for the first time since the last training (the flush after every flush_interval-th ended context). So once no new problem appears a training ends all fencing, and there is a run in which kernels of a problem still being explored, hence still timed, are not fenced.", "quantifier": "every sequence of fewer than 2^64 connector calls, settings, device", "why_tests_cant": "Timings without fences are not wrong in a way a test could see.", "anchors": ["src/connectors/kokkos/kokkos-connector.cpp: invoke_fence (lines 360-365), kokkosp_begin_parallel_for etc. (lines 380-420), kokkosp_request_values (line 558), kokkosp_end_context (line 599)"]}
{"id": "C88", "title": "Documented model strings create the documented models", "statement": "A new region whose model string - its own, or APOLLO_POLICY_MODEL when it has none - names Static, RoundRobin, Random, DecisionTree, RandomForest or PolicyNet with documented parameters (nothing loaded, no data kept between runs) gets an untrained model of that kind for its policies and features, with the values given (the first one of each parameter) and otherwise the documented defaults: policy 0; explore RoundRobin starting at policy 0, max_depth 2, num_trees 10; lr 0.01, beta 0.5, beta1 0.5, beta2 0.9, threshold 0. Reals are the nearest doubles of the decimal text; max_depth and num_trees are taken modulo 2^32, so that -1 is accepted and means 4294967295. A runtime started without APOLLO_POLICY_MODEL gives regions Static with policy 0. A parameter that should be a number but does not begin like one makes the creation throw.", "quantifier": "every state of the runtime, region, model string of this kind, decimal value and order of parameters, platform", "why_tests_cant": "All values of nine parameters of six models, in any order, as text.", "anchors": ["HOWTO.md lines 60-163", "src/ModelFactory.cpp: createPolicyModel (lines 49-152)", "src/Region.cpp: Region (lines 247-405), parsePolicyModel", "src/Apollo.cpp: Apollo (line 125)"]}
{"id": "C89", "title": "A trained tree or forest only answers policies that were measured", "statement": "After any calls, when every region has its own model and nothing is loaded from files, a region whose tree has been trained, or whose forest has been trained and has trees, answers on every request a policy of which its data set holds a metric - for features it has seen or not. A trained forest without trees (num_trees=0) always answers policy 0, measured or not.", "quantifier": "every sequence of calls from the start, region, request, settings, platform; unbounded data, trees and features", "why_tests_cant": "A policy can be answered for any feature vector, of which there are infinitely many, after any history.", "anchors": ["src/models/impl/DecisionTreeImpl.cpp: DecisionTreeImpl, build_tree, get_class, predict", "src/models/impl/RandomForestImpl.cpp: RandomForestImpl, predict", "src/Dataset.cpp: toVectorOfBestPolicies", "src/Region.cpp: train"]}
{"id": "C90", "title": "The documented training loop never tries another policy (defect)", "statement": "The loop HOWTO.md gives for training from the application calls train when i%100 is not zero, under the comment 'Train every 100 iterations'. With a DecisionTree or RandomForest that explores by RoundRobin it runs to its end and every execution gets policy 0, whatever the number of policies, the features and the times measured: the model is trained after the first execution, when only policy 0 has been measured, and never explores again. Without the calls of train the same executions try the policies in turn.", "quantifier": "every number of policies up to 1024, features, clock, settings with region models and no retraining, documented model string of the two kinds, platform; fewer than 2^21 iterations", "why_tests_cant": "The claim is about every length, feature and timing; a test of the documentation was never written.", "anchors": ["HOWTO.md lines 66-90", "src/Apollo.cpp: train (lines 407-427)", "src/Region.cpp: train (lines 79-174)", "src/models/DecisionTree.cpp, src/models/RandomForest.cpp: getIndex, train"]}
{"id": "C91", "title": "The traces of policies and of best policies hold exactly what happened", "statement": "With APOLLO_TRACE_POLICY the rank's policies file receives one line for each policy asked for, in order, naming the region, its model, the whole parts of its features at that time and the policy answered, and no call writes anything else to it; without the setting no call touches it. With APOLLO_TRACE_BEST_POLICIES every training of a region with data - asked for, for all regions, or automatic - leaves in the file of its step, rank and region name exactly one line per features vector of the region's data set, in order of features, with the policy of the lowest metric (the lowest such policy) and that metric; the step is the one given, the number of executions as an int for periodic training of all regions, or the number of executions of the region.", "quantifier": "every sequence of calls from any state (policies) or from the start (best policies), region, settings, platform; data sets of any size without NaN metrics", "why_tests_cant": "The files depend on the whole history, on which regions share a training and on which steps collide; a test sees one history.", "anchors": ["src/Region.cpp: train (lines 48-79), getPolicyIndex (lines 116-145), autoTrain (lines 492-505), collectContext (lines 507-536)", "src/Dataset.cpp: findMinMetricPolicyByFeatures", "src/Apollo.cpp: train (lines 475-512)"]}
{"id": "C92", "title": "The C interface runs the synchronous context of a region and nothing else", "statement": "A C program whose set-feature, get-policy and end calls on a region lie between its begin and its end, with as many usable features as the region has and known models, runs to completion and shuts down, even when it trains a region between begin and end. The calls have exactly the effects and results of the same calls naming the region's synchronous context; no execution is ever pending; set-feature, get-policy or end on a region that is not begun is undefined behaviour. __apollo_region_train changes nothing but that region's model, which is trained on exactly that region's measurements if it can be trained and has any, whatever the settings for collective or single-model training.", "quantifier": "every sequence of calls of the C interface (up to 2^24 of them for completion), any number of regions, any settings (plain ones for completion), platform and files", "why_tests_cant": "The state an unnamed context depends on is a pointer that collecting may clear; a test runs one interleaving.", "anchors": ["src/Apollo.cpp: extern \"C\" functions (lines 514-556)", "include/apollo/Apollo.h (lines 62-73)", "src/Region.cpp: begin, end, getPolicyIndex, setFeature, collectContext, train"]}
{"id": "C93", "title": "A model built on OpenCV is trained on the best policies and answers from its trained object", "statement": "In a build with OpenCV, training a decision tree or random forest on measurements of features of one length hands the library one row of floats per measured feature vector and, in the same order, one int, the policy with the least mean metric there. Features of two lengths end the training with an exception. Over any calls, the model holds the library object it was created with after exactly the trainings made, explores exactly as its explorer alone would until the first training or load, and from then on answers what that object predicts.", "quantifier": "every OpenCV library (a parameter), every reachable data set without NaN, every sequence of get-index, train, load and store calls", "why_tests_cant": "The library is external; what the code hands to it cannot be observed through the public interface.", "anchors": ["src/models/DecisionTree.cpp: ENABLE_OPENCV branches (lines 46-127)", "src/models/RandomForest.cpp: ENABLE_OPENCV branches", "src/Dataset.cpp: findMinMetricPolicyByFeatures"]}
{"id": "C94", "title": "With OpenCV a loaded model is dropped (defect)", "statement": "In a build with OpenCV, load calls the library's static load function and drops the object it returns: a model that has loaded a file and was not trained afterwards still holds the untrained object it was created with, counts as trained, and answers what the untrained object predicts. With a library that refuses to predict untrained, a tree stored after answering policy 1 and loaded into a new tree makes get-index throw.", "quantifier": "every OpenCV library, every model, every sequence of calls with a load and no training", "why_tests_cant": "Needs a build with OpenCV and a second run that loads; the load itself succeeds.", "anchors": ["src/models/DecisionTree.cpp: load (lines 122-126), constructor (line 48)", "src/models/RandomForest.cpp: load (lines 126-130)"]}
{"id": "C95", "title": "The time model is trained on policy numbers instead of times (defect)", "statement": "RegressionTree labels the int policies as CV_32F: policy p reaches the library as the float with the bits of p, p * 2^-149, and no metric ever does. Two data sets with the same features and policies whose metrics are ordered alike give the same time model and the same predicted times, even if one's times are a thousand times longer.", "quantifier": "every OpenCV library, every reachable data set without NaN with policies below 2^23, every pair of data sets with metrics in the same order", "why_tests_cant": "The predicted time is a double whatever the matrix held; a test has no reference time to compare with.", "anchors": ["src/models/RegressionTree.cpp: constructor (lines 18-92), getTimePrediction (lines 96-122)", "src/Dataset.cpp: findMinMetricPolicyByFeatures"]}
{"id": "C96", "title": "A tree or forest created from a file is the one that loads it", "statement": "A DecisionTree or RandomForest constructed from a file and one created with any parameters that then loads the same file either fail in the same way or are both no longer trainable, are stored as the same file and answer every sequence of calls alike. Without the file loading throws and constructing aborts. No other model than Optimal can be constructed from a file: the names of the others, including PolicyNet, throw, any other name aborts.", "quantifier": "every file contents, every parameters and explorer of the created model, every platform, every sequence of calls", "why_tests_cant": "The constructors that take a file are not called by the runtime; equality for every file and every later call is beyond any test.", "anchors": ["src/ModelFactory.cpp: createPolicyModel (lines 26-47)", "src/models/DecisionTree.cpp (lines 35-55, 122-126)", "src/models/RandomForest.cpp (lines 36-54, 126-130)"]}
{"id": "C97", "title": "A stored tree is not checked against the number of policies (defect)", "statement": "What a decision tree that loaded a file answers does not depend on the number of policies it was created for: a tree trained for a region with three policies and stored makes a later process, whose region of that name has two policies, execute policy 2. A forest is checked: loading the file of a forest for another number of policies throws.", "quantifier": "every file contents and any two numbers of policies; for forests every writable forest and any other number of policies", "why_tests_cant": "Needs two processes that disagree on the number of policies.", "anchors": ["src/models/impl/DecisionTreeImpl.cpp: parse_tree (lines 598-630)", "src/models/impl/RandomForestImpl.cpp: parse_rfc (lines 122-165)", "src/Region.cpp: constructor"]}
{"id": "C98", "title": "Trained trees take the best split at every node, up to rounding", "statement": "In a trained decision tree every node carries the Gini impurity of its samples up to rounding. It is a leaf only at the depth limit or if that impurity is zero up to rounding. Every other node divides samples of at least two classes, and no division of its samples by one threshold on any feature has a smaller weighted impurity than the one it takes, up to (4k + 26) / 2^24 for k classes. Its threshold is the midpoint of the greatest value on the left and the least on the right. Every tree of a trained forest is such a tree over its own draws, one after the other.", "quantifier": "every training set of at most 2^24 samples and 2^20 classes, every sorting function allowed by the standard, every earlier training, every sequence of draws", "why_tests_cant": "The bound concerns all splits at all nodes of all training sets in float arithmetic; tests can compare a few trees.", "anchors": ["src/models/impl/DecisionTreeImpl.cpp: compute_gini (lines 256-277), split (lines 313-373), build_tree (lines 375-414)", "src/models/impl/RandomForestImpl.cpp: train (lines 30-50)"]}
{"id": "C99", "title": "The bundled benchmark evaluates its tree without features (defect)", "statement": "apollo-overhead builds a decision tree and then times getPolicyIndex after a begin() that is followed by no setFeature. With at least one feature, 2 to 1024 policies and at least two training vectors, each executed under one policy only (as many repetitions as vectors, or policies dividing vectors), its executions and trainings succeed and the evaluation reads a feature of an empty vector: undefined behaviour. With one training vector, or no features, the tree is a leaf and the program exits with 0. Zero training vectors pass its check and are divided by. Fewer than four arguments, or more training vectors than repetitions, exit with 1.", "quantifier": "all argument values in the stated ranges, all clock readings, draws and files, all sorting functions allowed by the standard, every configuration without automatic training, traces, persistence or stored models", "why_tests_cant": "The program is run by hand and prints timings; whether reading past an empty vector is noticed depends on the build, and the result is thrown away.", "anchors": ["test/apollo-overhead.cpp: main (lines 14-106)", "src/models/impl/DecisionTreeImpl.cpp: evaluate_tree (lines 300-311)", "src/Region.cpp: createRegionContext (lines 437-472), train (lines 38-114)"]}
{"id": "C100", "title": "A device timer on the synchronous context is read before it is ready (defect)", "statement": "The bundled device programs (test-cuda.cpp, test-hip.cpp) replace the timer of the context begin({N}) returns, which is the region's synchronous one, by a device timer. end() then records the stop event, asks at once whether the device has reached it, ignores the answer and uses the metric: if the device has not, the metric is indeterminate and the behaviour undefined, whatever the settings and the model. If it has, the elapsed time in seconds is recorded for the features and policy of the execution. Under default settings both programs answer policy 0 in each of their 20 executions and end normally exactly when the device is never late; once late, they are undefined. For other timers and contexts the call behaves as in all other properties.", "quantifier": "all states, regions, settings and models for the call; all clock readings, draws, files and device times for the programs", "why_tests_cant": "Whether the device is in time depends on the driver and the load, the indeterminate metric is usually a plausible number left on the stack, and the tests need a GPU.", "anchors": ["test/test-cuda.cpp: main (lines 76-120)", "test/test-hip.cpp: main (lines 79-125)", "src/Region.cpp: end (lines 569-580)", "src/timers/TimerCudaAsync.cpp: isDone (lines 50-65)"]}
{"id": "C101", "title": "Tree and forest files are read to an end, truncated ones are never accepted, and what follows is ignored", "statement": "Loading a decision tree or a random forest from any bytes terminates. Whatever follows a text that loads does not change the result. No proper prefix of a text written by store loads, not even the text without its last newline (reading it is undefined, or aborts if it is empty).", "quantifier": "all byte strings; all writable trees and forests; all crash points", "why_tests_cant": "Quantifies over all file contents and over every crash point of every file.", "anchors": ["src/helpers/Parser.cpp: getNextToken (lines 17-45)", "src/models/impl/DecisionTreeImpl.cpp: parse_tree, load", "src/models/impl/RandomForestImpl.cpp: parse_rfc, load (lines 122-173)"]}
{"id": "C102", "title": "Of the classes a forest file lists only the last is checked (defect)", "statement": "Replace the list of classes of a stored forest by any other list of ints. If it contains 2147483647, loading is undefined. Otherwise it loads, with the same trees, exactly when the last entry is the number of policies minus one, whatever and however many the entries before it; else it throws.", "quantifier": "all writable forests, all lists of ints, all numbers of policies", "why_tests_cant": "No test loads a file that store has not written.", "anchors": ["src/models/impl/RandomForestImpl.cpp: parse_rfc (lines 137-149)"]}
{"id": "C103", "title": "Numbers in files are read as the nearest number their format has, or rejected", "statement": "Reading a float or double from a token that starts with a decimal or hexadecimal numeral, and does not go on with a letter, digit or point, gives the number of the format nearest to the numeral's exact value (ties to even), with its sign, and leaves the token behind the numeral. It throws exactly when that number is beyond the largest one, or is below the normal range and not exact. The words inf, infinity and nan are read in any case. Ints throw exactly when out of range; unsigned longs are taken modulo 2^64, unsigned ints silently modulo 2^32, minus sign included, and throw only from 2^64 on. Nothing but such texts is ever read.", "quantifier": "all tokens, all numerals", "why_tests_cant": "All numerals and all rounding cases.", "anchors": ["src/helpers/Parser.cpp: parse<int>, parse<double>, parse<float>, parse<unsigned int>, parse<unsigned long> (lines 89-129)"]}
{"id": "C104", "title": "Every job halts, in one and the same state whatever the order of the ranks' steps", "statement": "In a job whose ranks make finitely many calls, each at its own pace, with Apollo::train of every rank meeting in the exchange, no order of steps goes on for ever, and all orders end in the same state: the same ranks have ended, failed or wait for ever, with the same state of the runtime on every rank.", "quantifier": "all platforms, all MPI libraries, all numbers of ranks, all programs of the ranks, all interleavings", "why_tests_cant": "The interleavings of ranks cannot be enumerated, and a test sees one of them.", "anchors": ["src/Apollo.cpp: Apollo::train (lines 475-512), gatherCollectiveTrainingData (lines 331-470)", "src/Region.cpp: Region::autoTrain, Region::collectContext, Region::collectPendingContexts (lines 492-567)"]}
{"id": "C105", "title": "With collective training and a global period a job hangs unless all ranks reach the period or none does (defect)", "statement": "With APOLLO_COLLECTIVE_TRAINING and APOLLO_GLOBAL_TRAIN_PERIOD = p, where every rank makes calls that only measure executions of trainable regions: if one rank measures at least p executions and another fewer, no order of steps ends the job, and in the end the first rank waits in MPI, in the training of step p, for the second, which has made all its calls. If no rank measures p executions, the job ends. If every rank does, all of them meet in the exchange of step p.", "quantifier": "all periods, all numbers of ranks, all programs that measure executions and train only by the period, all interleavings", "why_tests_cant": "Whether the ranks reach the period depends on the load of each rank; small tests have equal loads.", "anchors": ["src/Region.cpp: Region::autoTrain (lines 492-505)", "src/Apollo.cpp: Apollo::train (lines 475-512)"]}
{"id": "C106", "title": "Equal numbers of executions on all ranks do not prevent the hang (defect)", "statement": "There is a job of two ranks, both with collective training and the global period 2, both measuring four executions, that ends with one rank waiting for ever for the other: the first measures one region, which is trained at the second execution and asks for no more training, while on the second rank a region without measurements at that time asks for training again at the fourth.", "quantifier": "an execution of the model refuting the claim for all jobs with equal numbers of executions", "why_tests_cant": "Needs ranks with different regions.", "anchors": ["src/Region.cpp: Region::autoTrain (lines 492-505)", "src/Apollo.cpp: Apollo::train (lines 475-512)"]}
{"id": "C107", "title": "A rank without collective training, or one that never calls for it, runs in a job as by itself", "statement": "A rank with local training, or with collective training but no global period and no call of Apollo::train, never waits for other ranks: whatever they do, it ends as it would by itself. Training by a region's period or minimum exchanges nothing.", "quantifier": "all jobs, all programs of the other ranks, all interleavings", "why_tests_cant": "All jobs around the rank.", "anchors": ["src/Region.cpp: Region::autoTrain (lines 492-505), Region::train (lines 38-114)", "src/Apollo.cpp: Apollo::train (lines 475-512)"]}
{"id": "C108", "title": "Ranks that run at their own pace end as the events of the job in order say", "statement": "If the calls of all ranks, put in any order in which every collective training is one event, all succeed one after the other, then the job with these calls ends in exactly those states of the ranks, whatever the order of the ranks' steps.", "quantifier": "all platforms, all MPI libraries, all jobs, all interleavings", "why_tests_cant": "The interleavings of ranks cannot be enumerated.", "anchors": ["src/Apollo.cpp: Apollo::train (lines 475-512), gatherCollectiveTrainingData (lines 331-470)"]}
{"id": "C109", "title": "The time of a synchronous execution is never negative and is exact up to a bound that grows with the clock", "statement": "On a clock that has run for less than 2^k seconds (k at most 52), the time measured for a synchronous execution is finite, not negative, and within 3*2^(k-54) + 2^-53 seconds of the time that passed between the two readings; this is less than a nanosecond for the first 48 days. So all measurements of a well-behaved client, and all numbers in its data set, are finite and not negative. With clocks that have run longer, the longer of two executions can be measured as the shorter.", "quantifier": "all readings of the clock, all well-behaved clients of a region", "why_tests_cant": "Rounding depends on the readings of the clock; the wrong order needs a clock that has run for months.", "anchors": ["src/timers/TimerSync.cpp: TimerSync::start, TimerSync::stop, TimerSync::isDone (lines 12-30)", "src/Region.cpp: Region::end, Region::collectContext (lines 507-545)", "src/Dataset.cpp: Dataset::insert (lines 28-39)"]}
{"id": "C110", "title": "With one model for all regions, or with retraining in a build without OpenCV, no region can be trained (defect)", "statement": "APOLLO_SINGLE_MODEL=1 is accepted only with APOLLO_REGION_MODEL=0. With APOLLO_REGION_MODEL=0, or with APOLLO_RETRAIN_ENABLE in a build without OpenCV, Region::train on a trainable region with measurements never returns (with APOLLO_REGION_MODEL=0 it throws), so the end of an execution returns only if no training of the region is due: a region that asked for a number of measurements, or a period, brings the program down when it is reached. A call of Region::train, or of Apollo::train with models for each region, that does return has changed nothing.", "quantifier": "all platforms, all settings with APOLLO_REGION_MODEL=0 or APOLLO_RETRAIN_ENABLE, all sequences of calls", "why_tests_cant": "All sequences of calls that come to a training.", "anchors": ["src/Region.cpp: Region::train (lines 38-114, throws at lines 51 and 85), Region::autoTrain (lines 492-505)", "src/Apollo.cpp: constructor (lines 190-201), Apollo::train (lines 475-512)"]}
{"id": "C111", "title": "With one model for all regions, training without measurements is undefined (defect)", "statement": "With APOLLO_SINGLE_MODEL=1, Apollo::train when no region has measurements does not return if a registered region has a decision tree, or a forest of at least one tree: the first element of an empty vector of features is read. With models for each region, regions without measurements are left alone.", "quantifier": "all platforms, all settings with one model, all sequences of calls after which no region has measurements", "why_tests_cant": "Tests train after measuring.", "anchors": ["src/Apollo.cpp: Apollo::train (lines 487-503)", "src/models/impl/DecisionTreeImpl.cpp: DecisionTreeImpl::train (lines 54-72)"]}
{"id": "C112", "title": "With one model for all regions, training leaves out executions still to be collected (defect)", "statement": "With APOLLO_SINGLE_MODEL=1, Apollo::train does not collect executions that have completed, although it is asked to: whatever its argument, the executions stay pending, all data sets stay as they are, and the model is trained without them.", "quantifier": "all platforms, all settings with one model, all sequences of calls", "why_tests_cant": "Needs asynchronous executions together with one model for all regions.", "anchors": ["src/Apollo.cpp: Apollo::train (lines 476, 487-503)"]}
{"id": "C113", "title": "The simple bundled program runs to its end and prints PASSED", "statement": "With settings that neither train collectively nor keep data sets, one model for each region and any documented APOLLO_POLICY_MODEL that loads no file, all ten executions of test/apollo-test-simple.cpp are defined, each is answered with 0 or 1, and the destruction of the runtime after main returns as well. With a fixed policy (the default is policy 0) all ten answers are that policy, or 0 if there is no such policy.", "quantifier": "all platforms, all such settings, all clock readings, draws and initial weights", "why_tests_cant": "The program prints PASSED whatever it is answered; all settings and all random draws matter.", "anchors": ["test/apollo-test-simple.cpp: main (lines 14-41)", "include/apollo/Region.h: Region (lines 38-43)"]}
{"id": "C114", "title": "The bundled program for jobs never prints PASSED (defect)", "statement": "In a job with any number of ranks, in any order of their calls and whatever else the other ranks do, a rank that makes the calls of test/apollo-test-mpi.cpp, with the training in the middle done alone or collectively, is answered in the second outer iteration with one policy only, so at most 16 of 64 executions match and FAILED is printed. More generally, on every rank of a job a decision tree that has been trained answers with one policy whatever the ranks exchanged.", "quantifier": "all platforms, all message libraries, all jobs with models for each region and without persistent data sets, all clock readings and draws; the ranks wait for each other only in Apollo::train", "why_tests_cant": "All interleavings of the ranks, all timings and all data exchanged.", "anchors": ["test/apollo-test-mpi.cpp: main (lines 33-102)", "src/Apollo.cpp: Apollo::train (lines 475-512)", "src/models/impl/DecisionTreeImpl.cpp: DecisionTreeImpl::train (lines 54-72)"]}
{"id": "C115", "title": "A trained random forest gives one answer (defect)", "statement": "Every tree of a trained forest votes for the smallest class among the ones drawn for it, whatever features it is asked about, and the forest answers the class with the most of these votes (the smallest of those with equally many): one class for all features. A region whose forest has been trained therefore returns one policy for all executions that follow, though different policies were fastest for different features.", "quantifier": "all training data, numbers of trees, depths and sample draws; all platforms, settings with models for each region, and calls in which no model, data set or optimal file is loaded and no training is forced", "why_tests_cant": "Tests train on one draw of samples; that no tree ever distinguishes features needs all data and all draws.", "anchors": ["src/models/impl/RandomForestImpl.cpp: RandomForestImpl::train (lines 30-50)", "src/models/impl/RandomForestImpl.cpp: RandomForestImpl::predict (lines 175-193)", "src/models/impl/DecisionTreeImpl.cpp: DecisionTreeImpl::train (lines 54-72)"]}
{"id": "C116", "title": "With a period for all regions, kept measurements are read but not trained on (defect)", "statement": "A region created with a learning model where measurements of an earlier process were kept takes them all over. Unless training of all regions is due, it is trained with them if a number of measurements was requested and as many were kept; with a period for single regions it is trained whatever number was requested. But when training of all regions is due - in particular for every region made before the first execution when such a period is set - it is not trained, because all regions are trained before the new one is among them. With load-dataset a region is trained with the measurements of the file whatever number was requested, and an empty file stops the program.", "quantifier": "all platforms, settings with persistent data sets, calls before the creation, kept files and requested numbers", "why_tests_cant": "Which regions are trained depends on the registration order, the execution counter and three settings together.", "anchors": ["src/Region.cpp: Region::Region (lines 316-348, 402)", "src/Region.cpp: Region::autoTrain (lines 492-505)", "src/Apollo.cpp: Apollo::train (lines 475-512)"]}
{"id": "C117", "title": "Training a forest trains it twice when collecting has trained it already, and the stored model then stops its reader (defect)", "statement": "Whether a model can still be trained is decided before pending executions are collected, and collecting may train. If collecting the pending executions of an exploring forest trains it, training it explicitly trains it a second time on the same data: it holds the trees of both trainings though it says it has the number asked for. Stored, such a model has a file that no forest of the same number of classes can load: loading it stops the program.", "quantifier": "all platforms, settings, calls without loads before, and forests with at least one tree; the file part for forests with writable numbers", "why_tests_cant": "Needs an execution on a device that ends between begin and train, a requested number of measurements reached by just that execution, and a later process.", "anchors": ["src/Region.cpp: Region::train (lines 38-114)", "src/Region.cpp: Region::autoTrain (lines 492-505)", "src/models/impl/RandomForestImpl.cpp: RandomForestImpl::train (lines 30-50)", "src/models/impl/RandomForestImpl.cpp: RandomForestImpl::parse_rfc (lines 122-165)"]}
{"id": "C118", "title": "A training step moves no parameter of the policy network further than a fixed number of learning rates", "statement": "In real arithmetic, whatever the features, policies and rewards of this and all earlier batches, the t-th training step of the policy network moves no weight and no bias by more than lr (1-b1) / sqrt((1-b2)(1-b1^2/b2)) sqrt(1-b2^t) / (1-b1^t), if 0 <= b1 < 1, 0 < b2 < 1 and b1^2 < b2. With the default averages b1=.5 and b2=.9 this is at most 1.87 learning rates in every step, so a model trained k times is within 1.87 k lr of its initial parameters, however large the measured times.", "quantifier": "all sizes, learning rates >= 0, batches, numbers of steps, initial parameters and rewards", "why_tests_cant": "A bound over all batches and all histories of the two averages; any test shows the movement for one history.", "anchors": ["src/models/PolicyNet.cpp: FCLayer::step (lines 142-181)", "src/models/PolicyNet.cpp: PolicyNet::PolicyNet (lines 415-438)", "src/ModelFactory.cpp: ModelFactory::createPolicyModel (lines 128-144)"]}
{"id": "C119", "title": "Times reported by devices are measured exactly up to one rounding and in their order", "statement": "If the device of an asynchronous execution reports a finite number of milliseconds, the measured time is that time in seconds up to one part in 2^53, without underflow or overflow; of two executions with different non-negative reports the longer one is always measured as strictly longer (which C109 shows to fail for synchronous ones). In every run each measurement of an asynchronous execution is the time a device reported in the run, in seconds up to this rounding, or the metric the client passed to end.", "quantifier": "all finite binary32 reports, all runs with explicit contexts, platforms and settings", "why_tests_cant": "The order claim is over all pairs of floats; a test sees a few.", "anchors": ["src/timers/TimerCudaAsync.cpp: TimerCudaAsync::isDone (lines 50-65)", "src/timers/TimerHipAsync.cpp: TimerHipAsync::isDone (lines 50-66)", "src/Region.cpp: Region::collectPendingContexts (lines 549-567)"]}
{"id": "C120", "title": "The first iteration of the bundled test program tries every pair and its measurements tell every right policy, which training then forgets (defect)", "statement": "With no training periods set, the first outer iteration of the bundled test program is given the policies 0, 1, 2, 3 in turn and executes every pair of a feature and a policy exactly 4 times, as its comment says. If every execution whose policy is its feature takes less time than every other one of that feature, by more than twice the error of the clock, then the data set the region holds before training has the right policy as the best one of each of the four features. After training with it the region nevertheless answers the right policy in only 16 of the 64 executions of the second iteration.", "quantifier": "all platforms with a correct sort and sampler, all settings that train each region once and on request, all clock readings below 2^52 seconds, draws and kept files", "why_tests_cant": "That the data held the answer rules out bad measurements as the reason the test fails; running it shows only FAILED, for one clock.", "anchors": ["test/apollo-test.cpp: main (lines 49-86)", "src/models/RoundRobin.cpp: RoundRobin::getIndex (lines 16-20)", "src/Dataset.cpp: Dataset::insert (lines 28-39)", "src/Dataset.cpp: Dataset::findMinMetricPolicyByFeatures (lines 51-92)"]}
{"id": "C121", "title": "A policy always measured faster is the best one of its features, but one slow last execution undoes any number of fast ones", "statement": "If for some features every measurement of a policy is less than every measurement of every other policy, the data set has this policy as the best one of these features, in whatever order and however often they were measured; measured times are numbers for which this holds without regard to rounding. If however the last measurement of a policy is more than twice every measurement of some other policy, the policy is not the best one, however often it was faster before.", "quantifier": "all histories of measurements without NaN features whose metrics are finite and not subnormal (the second claim: not negative)", "why_tests_cant": "Both claims are over all lengths and orders of measurements and all their rounded averages.", "anchors": ["src/Dataset.cpp: Dataset::insert (lines 28-39)", "src/Dataset.cpp: Dataset::findMinMetricPolicyByFeatures (lines 51-92)", "src/timers/TimerSync.cpp: TimerSync::isDone (lines 26-30)"]}
{"id": "C122", "title": "min_training_data counts distinct pairs of features and policy, not measurements (defect)", "statement": "With no training periods, no kept or loaded data and no explicit training of the region, a region with a decision tree or a random forest created with min_training_data n is untrained after a run exactly if n is not positive or the executions measured so far have less than n distinct pairs of features and policy. A region whose executions have features from a set of k vectors and np policies is therefore never trained when k * np < n, however often it is executed.", "quantifier": "all platforms, settings and kept files with these conditions, all runs of any regions whose calls name their context, the region's executions one at a time", "why_tests_cant": "A test runs a fixed number of executions; that no number of them trains the region is a statement over all run lengths.", "anchors": ["src/Region.cpp: Apollo::Region::autoTrain (lines 492-505)", "src/Region.cpp: Apollo::Region::collectContext (lines 507-536)", "src/Dataset.cpp: Dataset::size (line 10)", "src/Dataset.cpp: Dataset::insert (lines 28-39)"]}
{"id": "C123", "title": "A measurement that is kept takes the features of its context with it (defect)", "statement": "The end of a synchronous execution leaves the region's context without features if the measurement was kept, and with the features it had otherwise; its policy stays. Until the region is begun again or a feature is set on that context, whatever else is called, the context has no features, and another end of it records a measurement without features.", "quantifier": "all platforms, settings, kept files and runs whose calls name their context", "why_tests_cant": "The loss is silent, and depends on whether the region still keeps measurements at that moment of the run.", "anchors": ["src/Dataset.cpp: Dataset::insert (lines 27-39)", "src/Region.cpp: Apollo::Region::collectContext (lines 507-536)", "src/Region.cpp: Apollo::Region::end (lines 538-547, 569-580)"]}
{"id": "C124", "title": "Training a tree on a vector that does not fit the first one is undefined, as after a measurement without features (defect)", "statement": "Training a decision tree of positive depth on responses of two classes is undefined if some features vector is shorter than the first one, or has a NaN at a position the first one has, or if the first vector is empty. Training a region not yet trained is undefined as soon as one of its measurements has no features and two features vectors have different best policies; an execution ended twice, or Kokkos contexts of one problem inside one another, bring this about.", "quantifier": "all sorts the standard allows, all earlier trainings, all data within the sizes given; all platforms, settings and runs whose calls name their context", "why_tests_cant": "Reading past an empty vector while sorting is silent.", "anchors": ["src/models/impl/DecisionTreeImpl.cpp: split (lines 313-373), build_tree (lines 375-414)", "src/Region.cpp: Apollo::Region::train (lines 38-114)", "src/connectors/kokkos/kokkos-connector.cpp: kokkosp_end_context"]}
{"id": "C125", "title": "What explore= accepts decides how, and whether, a tree or a forest explores (defect)", "statement": "Until it is trained, whatever is called, a DecisionTree or RandomForest region answers the policies in turn by default and with explore=RoundRobin, DecisionTree or RandomForest; only policy 0 with explore=Static; with Optimal or DatasetMap the first call asking it for a policy aborts; with PolicyNet it draws from the network's initial weights, which are never trained; any other name than a model's aborts when the region is created.", "quantifier": "all platforms, settings, kept files and runs", "why_tests_cant": "The accepted names beyond the two documented ones are found nowhere but in the factory, and what they do shows only over a run.", "anchors": ["src/ModelFactory.cpp: ModelFactory::createPolicyModel (lines 49-152)", "src/models/DecisionTree.cpp: DecisionTree::getIndex (lines 115-120)", "src/models/RandomForest.cpp: RandomForest::getIndex (lines 119-124)", "src/models/Optimal.cpp: Optimal::getIndex (lines 29-39)", "src/models/DatasetMap.cpp: DatasetMap::getIndex (lines 14-24)", "HOWTO.md lines 131-157"]}
{"id": "C126", "title": "A policy network learns nothing from equal times, and from two different ones only about the two policies", "statement": "In real arithmetic, a policy network whose measured times are all equal keeps its initial weights and biases however often it is trained, so a first training on one measurement changes nothing. The first training on two policies measured with the same features raises the output bias of the faster one and lowers that of the slower one by the same amount, does not lower weights to the faster nor raise weights to the slower, and leaves what belongs to other policies.", "quantifier": "all sizes, initial weights, decay rates below 1, features and histories of training and asking", "why_tests_cant": "The reward is compared with a moving average, so the sign of what is learned depends on all earlier trainings.", "anchors": ["src/models/PolicyNet.cpp: PolicyNet::train (lines 442-475), PolicyNet::trainNet (lines 477-530)", "src/models/PolicyNet.cpp: Softmax lossGrad (lines 315-332), FCLayer::step (lines 142-181)"]}
{"id": "C127", "title": "The rounded outputs of a policy network are a distribution up to rounding, in the order of the outputs, or none is a number", "statement": "In binary64, for every row of a batch: if the last layer gives numbers or minus infinity, and a number at least once, the probabilities are numbers from 0 to 1 whose sum differs from 1 by at most 2^-52 for each policy, and a policy with a larger output is never less probable; no overflow is possible. In every other case all probabilities of the row are NaN.", "quantifier": "all networks, inputs and batches, up to 2^52 policies, every exp that is 1 at 0, between 0 and 1 and nondecreasing below, and NaN at NaN", "why_tests_cant": "Rounding error over all outputs and sizes.", "anchors": ["src/models/PolicyNet.cpp: Softmax::forward (lines 271-313)"]}
{"id": "C128", "title": "One time that is not a number spoils a policy network for good (defect)", "statement": "Once a policy network is trained on data with a NaN among the times, the biases of all its outputs and the average of its rewards are NaN and stay so whatever it is trained on afterwards; every policy from then on is drawn with weights that are all NaN, whatever the features. Nothing checks times on the way: they come from Region::end(context, metric) and from kept datasets.", "quantifier": "all sizes, settings, initial weights, earlier and later uses", "why_tests_cant": "Needs a NaN metric and then every possible later history.", "anchors": ["src/models/PolicyNet.cpp: PolicyNet::trainNet (lines 477-530), PolicyNet::getIndex (lines 532-594), FCLayer::step (lines 142-181), Softmax::lossGrad (lines 315-332)", "src/Region.cpp: Region::end"]}
{"id": "C129", "title": "What its inputs never show a policy network (defect)", "statement": "In real arithmetic, a bit of a feature that is 0 in all data a policy network was trained with keeps its random initial weights, however often it is trained; the first request with the bit set is answered with them. In binary64, before its first training a network with finite weights draws every policy with the same weight, the double nearest to 1/m, whenever all features are below one - so features have to be scaled up by the client for the network to see them.", "quantifier": "all sizes, initial weights, settings and histories; up to 2^52 policies; every exp that is 1 at 0", "why_tests_cant": "Statements about all later training and all weights.", "anchors": ["src/models/PolicyNet.cpp: PolicyNet::train (lines 442-475), PolicyNet::getIndex (lines 532-594)", "src/models/PolicyNet.cpp: FCLayer::FCLayer (lines 23-51), FCLayer::backward (lines 109-140)"]}
{"id": "C130", "title": "A tree is not checked against the features it is asked about (defect)", "statement": "Asked about a vector of features, a tree goes from its root to the left child of a node if the feature the node names is below its threshold and to the right child otherwise. The answer is the class of the node where that way ends; asking is undefined exactly if the way comes to a node that names a feature the vector does not have, and a forest is undefined exactly if one of its trees is, all trees before it having voted for a policy. Trained on vectors of at most k features a tree answers whenever it is given at least k, but nothing checks that it is: neither the number of features a region declares nor the one in the file of a tree is compared with anything. A tree stored by a process that used two features is loaded by one whose region of that name declares one, and asking it is undefined.", "quantifier": "all trees, forests and vectors; all regions, contexts and states of the runtime with a trained tree; all training data for the positive part; one witness for the stored tree", "why_tests_cant": "Which vectors are safe depends on the whole way through the tree; reading past a vector usually goes unnoticed.", "anchors": ["src/models/impl/DecisionTreeImpl.cpp: DecisionTreeImpl::evaluate_tree (lines 300-311), DecisionTreeImpl::parse_tree (num_features, line 621)", "src/models/impl/RandomForestImpl.cpp: RandomForestImpl::predict (lines 175-193)", "src/Region.cpp: Region::getPolicyIndex (lines 116-151)"]}
{"id": "C131", "title": "Metrics far from zero teach a policy network nothing or spoil it (defect)", "statement": "The reward of a metric x is exp(-x), assumed to lie between 0 and 1. In binary64 it is 0 for every x of 746 or more: two histories of a network that differ only in metrics of 746 or more give the same answers and leave the same network bit for bit, whichever policy was faster. For x so far below zero that the reward is infinite, one such metric in any training has the effect of a NaN: the biases of all outputs become NaN and stay so, and every later answer is drawn with weights that are all NaN.", "quantifier": "all networks, histories, settings with beta from 0 to 1, and every exp that is 0 from -746 down, NaN for NaN, and every pow that keeps the powers of beta from 0 to 1", "why_tests_cant": "Equality of whole networks after any histories; effects of one value on all later training.", "anchors": ["src/models/PolicyNet.cpp: PolicyNet::train (lines 464-469), PolicyNet::trainNet (lines 477-530)"]}
{"id": "C132", "title": "Data sets made from the traces of several regions mix up columns (defect)", "statement": "create-dataset.py puts the traces it is given together, keeps the rows of each region and takes the columns between the fifth and the last but one for its features. Let the traces be as the runtime writes them (C65), with executions that have as many features as their region declared, and no NaN. For a region with no more features than the region of the first trace file read the data set without aggregation holds exactly the features, policy and metric of its executions, in order. For a region with more features the columns that the first trace lacks come after the policy and the metric: the data set holds, as features of every execution, those the first trace has columns for, then the policy, then the metric, then what of the others still fits. So the policy is among the features to train with, and the last features are lost. If one execution of a region has fewer features than declared, or a NaN metric, no data set comes out: the column of the metric is dropped and missed. Directories stand for their files one after another, and files named beside directories are ignored.", "quantifier": "all lists of traces of any regions, ranks and models; all regions among them; names without blanks, line ends, quotation marks, and not read as missing values by pandas", "why_tests_cant": "The outcome depends on the order of the files, which glob does not fix.", "anchors": ["src/python/modeling/create-dataset.py: agg_by_none (lines 24-36), read_tracefiles (lines 113-131), read_tracedirs (lines 134-142), main (lines 156-186)", "src/Region.cpp: Region::Region (lines 393-398), Region::collectContext (lines 516-525)"]}
{"id": "C133", "title": "What the aggregations keep of the measurements", "statement": "Let the features and times of a region's rows be numbers. The aggregation mean gives exactly one entry for each features and policy measured, with the mean of the times measured for them, in their order. The aggregation min gives exactly one entry for each features: the first of the rows with the least time. The aggregation mean-min gives exactly one entry for each features: the policy with the least mean, the lowest such policy, and that mean; it is the best entry the aggregation mean has for these features. min and mean-min can give different policies for the same rows.", "quantifier": "all lists of rows of any length, any number of features and policies; every mean function (not NaN on the data for mean-min)", "why_tests_cant": "Grouping, sorting and choosing over data of any size; existence and uniqueness of entries.", "anchors": ["src/python/modeling/create-dataset.py: agg_by_mean (lines 39-57), agg_by_min (lines 60-80), agg_by_mean_min (lines 83-110)"]}
{"id": "C134", "title": "create-dataset.py fails on every directory of traces (defect)", "statement": "Beside the traces of the regions Apollo writes a trace of all regions, trace-rank-<rank>.csv, into the same directory; create-dataset.py --tracedirs reads all files trace*.csv there, so this one too, but its columns are others and its rows name no region. If it holds at least one execution, the script always ends with an error (the missing region cannot be made part of a file name). The only data sets written are those of regions executed in a trace read before it: if it is read first, none. When the traces are regular, exactly these get one, with the content it would have without the trace of all regions. With traces of regions alone, as --tracefiles allows, every region executed gets exactly one data set and the script ends normally.", "quantifier": "all lists of directories, any number of traces of regions and of all regions in any order; any time stamps, names, indices and policies", "why_tests_cant": "Which regions are lost depends on the order in which glob lists the files.", "anchors": ["src/python/modeling/create-dataset.py: read_tracefiles (lines 113-131), read_tracedirs (lines 134-142), main (lines 145-186)", "src/Apollo.cpp: Apollo::Apollo (lines 226-235)", "src/Region.cpp: Region::collectContext (lines 510-515)"]}
{"id": "C135", "title": "rfc2dot_opencv.py cannot draw most forests (defect)", "statement": "The script draws each tree of a forest that OpenCV stored: it puts every node below the right parent from the depths alone, and then asserts that the stack it keeps has the root on top. This holds only if the last node stored is the root or a child of the root. So the script fails, and draws nothing, exactly if in some tree the right part of the root is split again. If it does not fail, the picture shows exactly one node with its label for each node stored, under distinct names, an edge from each inner node to its two children, an edge from the picture's root to the root of each tree, and no other: every node but the root has exactly one edge leading to it.", "quantifier": "all lists of binary trees of any shape and size, all labels", "why_tests_cant": "The assertion depends on the shape of the trees; correctness of the reconstruction needs induction over them.", "anchors": ["src/python/analysis/rfc2dot_opencv.py: parse_tree (lines 40-70), parse (lines 72-89)"]}
{"id": "C136", "title": "dtree2dot.py and rfc2dot.py draw the trees stored", "statement": "The picture of a stored tree has exactly one node for each node of the tree, with its label, and one for the tree itself; the names, made of left and right on the way from the root, are all distinct; the edges are exactly those from each node to its children and from the tree to its root. The picture of a forest has one node for the forest and shows as many of its trees as it says it has, in the same way, under names distinct between trees, with an edge from the forest to each; it fails exactly if there are fewer trees than that. Every node but the first has exactly one edge leading to it.", "quantifier": "all trees of any shape, with nodes lacking either or both children; all forests with any number of trees; all labels", "why_tests_cant": "Distinctness of names at any depth and for any number of trees (tree_1 and tree_10).", "anchors": ["src/python/analysis/dtree2dot.py: parse_node (lines 7-25), parse_tree (lines 28-43)", "src/python/analysis/rfc2dot.py: parse_rfc (lines 8-24)"]}
{"id": "C137", "title": "The file of best policies makes an Optimal model use a fastest policy", "statement": "From the traces of runs with each static policy analyze-traces.py --write-opt writes, for a rank, one file for each region measured on it. The file holds, by index, exactly one policy for each execution of the region measured: one that took least time among those measured for this execution on this rank, however rows with equal times are arranged by sorting. If the executions measured are those numbered from 0 without a gap, an Optimal model made from the file gives each of as many executions such a policy, and aborts the program at the next one.", "quantifier": "all lists of rows of any ranks, regions, indices, policies and times that are not NaN; every order the sort may leave; every sequence of calls", "why_tests_cant": "Any number of rows, ties broken in any way by an unstable sort; the link between script and library.", "anchors": ["src/python/analysis/analyze-traces.py: main (lines 169-175, 230-249)", "src/models/Optimal.cpp: Optimal::load, Optimal::getIndex (lines 14-51)"]}
{"id": "C138", "title": "analyze-traces.py counts for policy 0 what was run for policies a region does not have (defect)", "statement": "run-exhaustive.py runs a program once for each static policy, and analyze-traces.py adds up the times of each policy. No run overwrites a trace of another, and all traces of these runs are read, each once, and no others. In the run for a policy that a region does not have, the runtime uses policy 0 there and writes its name into the trace. So the time reported for policy 0 is the sum of the times of its own run and, in addition, of every execution in every other run of a region that lacks the policy of that run; the time reported for another policy leaves out all executions of the regions that do not have it. When every region has all policies tried, the time reported for a policy is the sum of all times of its run.", "quantifier": "all numbers of policies, ranks, regions and executions; every directory, in every order of its files, with other files whose names do not contain Static,policy=; all runs of the runtime with a static setting; every way pandas may read a number", "why_tests_cant": "Shows only when regions have different numbers of policies, which the script says it allows; the scripts have no tests.", "anchors": ["src/python/analysis/run-exhaustive.py: main (lines 18-22)", "src/python/analysis/analyze-traces.py: read_csv (lines 24-34), compute_execution_time (lines 36-43), main (lines 169-175)", "src/ModelFactory.cpp: createPolicyModel (lines 55-68)", "src/Region.cpp: Region::Region (lines 382-399)"]}
{"id": "C139", "title": "The time of the best choices is least, but a single policy can be reported to take less (defect)", "statement": "Without rounding, the sum of the times of the best choices, one for each execution, is at most the sum of the times of the run for any single policy in which every execution was measured that was measured in any run: the speedup that analyze-traces.py is to report is at least 1. But what it reports need not be: because of C138 there are runs for which the policy it finds to be best is reported to take less time than the best choices.", "quantifier": "all traces of any ranks, regions and executions with finite times that are not negative; every order the sort by time may leave", "why_tests_cant": "A sum over any number of executions; the wrong report needs regions with different numbers of policies.", "anchors": ["src/python/analysis/analyze-traces.py: main (lines 205-207, 230-234, 252-258), compute_speedup (lines 62-79)"]}
{"id": "C140", "title": "The file of a trace is its region's only while no other region of that name is there (defect)", "statement": "With APOLLO_TRACE_CSV each region opens the file of its name for writing, and its stream hands over text at times of its own choosing. As long as no other region not yet destroyed has a file of the same name from the making of a region on, the file holds the beginning of its trace at any time and the whole trace once the region is destroyed, whatever was in the file before; so the trace of an earlier region of the same name is lost. When regions of one name are there at the same time the file is neither trace: each of its bytes is the byte at that place of one of the traces, or NUL, and there are runs in which it begins with NUL bytes. When text is handed over only at the end, the region destroyed last overwrites the beginning of the other's trace, and what the other has beyond that stays behind it. Files that are not of a trace are not touched.", "quantifier": "all runs of the runtime from any settings, rank and files; any number of regions; all times at which streams hand over any part of their buffers", "why_tests_cant": "What a file holds depends on when buffers are written and on the order in which regions are made and destroyed; tests make one region of each name.", "anchors": ["src/Region.cpp: Region::Region (lines 382-399), ~Region (line 414), collectContext (lines 510-525)", "include/apollo/Region.h: trace_file (line 89)"]}
{"id": "C141", "title": "The policy network credits measurements of policies it does not have to other samples or to none (defect)", "statement": "Training takes the policy of each sample, adds it to the start of the sample's row and writes at that place of the array of gradients, without a check. If all policies are in range, the array holds the policy gradient of C43. If the place of some sample lies outside the array, which may be longer than the batch needs, training is undefined. If one sample has a policy above the range whose place lies in the array, its reward is credited to no policy while it still counts against all of them, and the gradients of all other samples are right. If one sample has a negative policy whose place lies in the array, its reward is credited to a policy of an earlier sample.", "quantifier": "every batch, number of policies, number type, rewards, probabilities and previous contents and length of the array", "why_tests_cant": "Such data come from files of earlier runs with other policies; inside the array nothing crashes and the learning is silently wrong.", "anchors": ["src/models/PolicyNet.cpp: Softmax::lossGrad (lines 315-332), Softmax::forward (lines 271-284), PolicyNet::train (lines 442-475)"]}
{"id": "C142", "title": "plot-trace.py counts every execution in the right bar, but labels it in the wrong unit and overwrites its plots (defect)", "statement": "For a trace of a region with a feature, either part of the executions is shown as one bar for each distinct first feature and policy, as high as they were executed together and labelled with their mean time (0 if never); every execution of a part is in exactly one bar. Labels are millionths of the recorded seconds while the title says ms. The file of the plots is named after what stands before the first dash in the name of the model, so the plots of other regions and ranks, and of models that agree up to a dash, overwrite it. A trace named with its directory and a trace of a region without features are not plotted: the script throws.", "quantifier": "every trace, name, place to cut, way to average and to print numbers", "why_tests_cant": "Labels are placed by strides through one list; a wrong stride or order shows plausible numbers on wrong bars.", "anchors": ["src/python/analysis/plot-trace.py: plot_bars (lines 12-40), main (lines 42-84)"]}
{"id": "C143", "title": "Kokkos problems whose names agree in 63 characters with an earlier one explore forever (defect)", "statement": "With trees or forests, nothing loaded and no training periods: if two different Kokkos tuning problems have the same name once it is cut after 63 characters (the names of all their variables are joined), the second has a region of its own that is measured like any other, but however many calls and flushes follow, its model is never trained and keeps exploring; only the first of a name is trained.", "quantifier": "every run of the connector, platform, hash, settings, files and pair of problems", "why_tests_cant": "The connector works for any test with short variable names; with long ones nothing fails, the second kernel is merely never tuned.", "anchors": ["src/connectors/kokkos/kokkos-connector.cpp: get_region_name (lines 484-499), kokkosp_request_values (lines 505-583), kokkosp_end_context (lines 585-601)", "src/Region.cpp: Region::Region (lines 247-405)", "src/Apollo.cpp: Apollo::train (lines 475-512)"]}
{"id": "C144", "title": "analyze-traces.py counts a tree's explorations as its choices (defect)", "statement": "In a run with decision trees, all measurements of a region are in its trace under the name DecisionTree, also those taken while the tree still explored. So of a directory with the traces of a run with DecisionTree,explore=RoundRobin (or Random), analyze-traces.py --rr (or --random) reports no time for exploring and the time of all executions for the trained tree, and as its accuracy the share of all executions, exploring or not, that had the fastest policy. A trace is read for a model exactly if the model's name and a hyphen follow somewhere after 'trace' in its name: not if a parameter follows, but also if a region is named so.", "quantifier": "every run of the runtime, platform, settings and region; every directory, list of traces, rank and reading of numbers", "why_tests_cant": "The script runs without complaint and prints plausible numbers; only comparing them with what was explored shows the difference.", "anchors": ["src/python/analysis/analyze-traces.py: read_csv (lines 24-33), compute_execution_time (lines 36-59), compute_accuracy (lines 81-135), main (lines 177-187 and 208-213)", "src/Region.cpp: Region::Region (lines 383-402), collectContext (lines 507-525)"]}
{"id": "C145", "title": "The relaxed accuracy of analyze-traces.py leaves out executions that beat the best (defect)", "statement": "Of the traces of a run whose trees explore, the relaxed accuracy that analyze-traces.py reports counts the executions that had the fastest policy and, of the others, those whose time is within ten per cent of the best time measured for the same execution, to a millionth of the best either way, and exactly for whole times below 2^40. The difference is taken absolutely, so an execution with another policy that took more than ten per cent less than the best is not counted, as if it had been slow.", "quantifier": "every directory, list of traces with one row per execution, rank, reading of numbers and table of measurements with times between 2^-500 and 2^500, and one fastest policy for each execution", "why_tests_cant": "The boundary depends on rounding three double operations, and the executions left out are those no one suspects: the script prints only a percentage.", "anchors": ["src/python/analysis/analyze-traces.py: compute_accuracy (lines 81-135), main (lines 230-234, 268 and 269-276)"]}
{"id": "C146", "title": "analyze-traces.py looks for traces that no run makes (defect)", "statement": "In the last run of run-exhaustive.py, which has the model RoundRobin, every measurement is traced under the name RoundRobin (so with Random): nothing is ever trained. analyze-traces.py --rr (--random) looks in the traces of this run for rows of DecisionTree, finds none, and reports all time as exploring, none for a trained tree, and an accuracy of 0 out of 0 executions, strict and relaxed, whatever the policies were; the percentage is then not a number. Traces of trees that are loaded (model DecisionTree,load) are not read by --load unless the name of a region has 'Load-' in it or ends with Load: without one the script fails as it has nothing to put together.", "quantifier": "every run of the runtime, platform, settings and region; every directory, list of traces, rank, table of best policies and reading of numbers", "why_tests_cant": "The scripts belong together but are started by hand on the output of long runs; a missing percentage looks like a lack of data.", "anchors": ["src/python/analysis/run-exhaustive.py: main (lines 17-27)", "src/python/analysis/analyze-traces.py: read_csv (lines 24-33), compute_execution_time (lines 36-59), compute_accuracy (lines 81-135), main (lines 177-193 and 269-276)", "src/Region.cpp: Region::Region (lines 383-402), collectContext (lines 507-525)"]}
{"id": "C147", "title": "A run that follows the file of best policies is reported to be accurate, but for ties", "statement": "When every execution in the traces of an Optimal run has the policy that the file written by analyze-traces.py --write-opt has at the place of its index, and the executions measured for each region are numbered from 0 without gaps, analyze-traces.py --opt reports an accuracy of all executions out of all, strict and relaxed, also where several policies are fastest, provided that the rows are sorted as they were for the file. Sorted in another order among equal times, the same measurements can show executions of the same run to be wrong.", "quantifier": "every directory, list of traces, rank, table of measurements without NaN, and every order of equal times", "why_tests_cant": "The order of equal times depends on pandas' quicksort and the order in which files are listed; a test on one machine sees one order.", "anchors": ["src/python/analysis/analyze-traces.py: compute_accuracy (lines 81-135), main (lines 195-199, 230-234, 243-249 and 281-284)", "src/models/Optimal.cpp: getIndex (lines 29-39)"]}
{"id": "C148", "title": "Regions whose model learns nothing answer the same with and without training", "statement": "A region created with model Optimal when the file opt-<name>-rank-<rank>.txt holds a list of policies answers, whatever else is called on it and on other regions, with the policies of the file from the first on; after the last the next call that asks for a policy aborts; without the file the creation of the region aborts. When the file was written by analyze-traces.py --write-opt from measurements whose executions are numbered from 0 without gaps, the answer to the n-th call is a policy that took least time for execution n. A region with model RoundRobin answers with 0, 1, ... in turn and one with Static,policy=k always with k, also when training is forced, periodic or uses the data of all regions.", "quantifier": "every world the region is created in, region name, number of policies, file of policies, and every sequence of calls", "why_tests_cant": "Forced, periodic and shared training reach a region's model by different routes; tests run one region with one model.", "anchors": ["src/models/Optimal.cpp: getIndex (lines 29-39), load (lines 41-50)", "src/Region.cpp: Region (lines 350-360), getPolicyIndex (lines 116-134)", "include/apollo/models/Optimal.h: train (line 29)", "include/apollo/models/RoundRobin.h: train (line 27)", "include/apollo/models/Static.h: train (line 28)"]}
{"id": "C149", "title": "The histograms of policies leave out what --nstatic does not cover", "statement": "For the traces of trees that explore and of Optimal runs, the histograms analyze-traces.py prints for a rank have one entry for each policy below nstatic, in order. When all policies are below nstatic each entry is how often the policy is best, or was used, and the entries add up to all executions. Otherwise the last entry also counts the executions with policy nstatic, and executions with other policies are counted nowhere.", "quantifier": "every directory, list of traces, rank, list of best choices and number of policies", "why_tests_cant": "The last bin of np.histogram is closed, the others are not; a test with policies in range cannot tell.", "anchors": ["src/python/analysis/analyze-traces.py: compute_accuracy (lines 81-87 and 104-110), main (lines 269-284)"]}
{"id": "C150", "title": "The speedups say which was faster, and a rank without executions ends the analysis (defect)", "statement": "For ordinary times (finite, between 2^-500 and 2^500), the speedup analyze-traces.py prints over Static,0 is at least 1 exactly when the model took no longer than what is reported for Static,0, the speedup over the best static policy is at least 1 exactly when it took no longer than any static policy, and the second is never greater than the first. On a rank for which no run measured an execution all times are zero and the script ends with a division by zero; so it does for a model under which no time was recorded on a rank, whatever the static policies took.", "quantifier": "every table of traces, rank, number of policies and pair of times; for the defect every directory of traces of static runs and rank without measurements", "why_tests_cant": "That rounding of the quotient never hides a difference holds for all doubles, which tests cannot cover; ranks without executions need programs whose regions run on some ranks only.", "anchors": ["src/python/analysis/analyze-traces.py: compute_speedup (lines 62-78), main (lines 203-263)"]}
