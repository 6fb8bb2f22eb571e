# Design of the formal model of LLNL/apollo

Prover: Coq 8.16.1 (Rocq). Sources under `rocq/theories`:

* `Model/` - executable model of the C++ code, function by function; every definition cites the
  file and lines it follows. No proofs of properties.
* `Spec/`  - small independent specifications used to state the properties.
* `Proofs/` - lemmas.
* `Props/` - the property theorems `C01_...`; each closed by `exact`, with `Print Assumptions`
  beneath and an `Example` showing the hypotheses are met by a concrete non-trivial case.

## Trusted base

* Coq's kernel (and `coqchk` run by the gate).
* For each theorem, the axioms printed by `Print Assumptions`. Only standard-library axioms are used
  (those of `Coq.Reals`: `sig_forall_dec`, `sig_not_dec`, functional extensionality, and classical logic
  for the analytic theorems; Flocq's float theorems depend on the Reals ones). No axiom is added here.
* The faithfulness of the model to the C++ text, by the citations.

## Modelling decisions

* **Outcomes.** Every operation that can fail returns `Ok v`, `Throw` (C++ exception), `Abort`
  (`abort()`, `exit`, failed `assert`), `UB` (undefined behaviour: out-of-bounds, null or freed pointer,
  end-iterator dereference, float-to-integer overflow, broken map comparator) or `Fuel`. These are never merged.
* **Floating point.** `float`/`double` are Flocq's `binary_float 24 128` / `binary_float 53 1024`, rounding
  to nearest even, single NaN. x86-64 SSE semantics (no excess precision) is assumed. NaN payloads and
  signs are not modelled.
* **Decimal conversion.** `ostream << float/double` with default flags is `%.6g`, modelled by exact
  rational arithmetic with round-half-even; `stof`/`stod` are the correctly rounded conversions.
* **std::map / std::sort / RNG / libm / clock / async timers.** The map is a sorted association list
  under the same comparator. `std::sort` is any function returning a sorted permutation (a parameter).
  Random draws, clock values, timer completion order, `exp`, `log`, `sqrt`, `pow` are parameters (theorems
  quantify over them).
* **Memory allocation failure, OS-level I/O errors, threads and OpenMP, CUDA/HIP timers' internals,
  LIKWID, perf counters (PAPI off)** are not modelled.
* **Integers.** `int`, `size_t`, `uint64_t` are `Z`; ranges are stated where a wrap-around could matter.
* **Characters.** `std::isspace` is called on `char`; its behaviour on negative values (bytes >= 128, formally
  undefined) is modelled as `false`. `istreambuf_iterator` is modelled without the caching some old libstdc++ had.
* **Undefined evaluation orders** in the code base are not relevant in the modelled functions.

* **Decision trees.** The order `std::sort` gives equivalent samples is unspecified, so theorems quantify over
  every sort returning a sorted permutation. `assert`s are enabled (no NDEBUG). No fused multiply-add contraction
  of the gini expressions is assumed. The `int` class counter does not overflow (it would need 2^31 samples).

* **MPI.** A job is a list of ranks, each a state of the runtime model; between collective calls the ranks run in any
  order. The library is a parameter (bytes of each type, answers of MPI_Pack_size); its errors are fatal. A collective
  call takes place when every rank has made it. Model/JobM.v gives each rank its own pace: a call that comes to the
  exchange waits there with the rest of the call, wherever in the call it is.

* **OpenCV.** The runtime model is of a build without OpenCV. The ENABLE_OPENCV branches of the models are modelled
  apart (Model/OpenCvM.v) over any library: a record of create, load, train, predict and save functions.

* **Policy network.** The network functions are written once over a structure of numbers (`arith`) and used with
  binary64 (and any `exp`/`pow`) or with the real numbers. Theorems "in real arithmetic" speak of the latter:
  they ignore rounding. Arrays are lists and every subscript is checked; an out-of-range one is `UB`.
  Files of PolicyNet are little-endian memory images.

* **Region runtime.** A world holds the regions (dead ones stay as tombstones so that a dangling pointer is seen),
  their contexts (the shared synchronous one and the heap ones), the name registry, the execution counter and the files.
  The application's calls are operations `op`; `step` gives the result of one call. A device timer finishes by the
  operation `OpComplete`, between calls, or inside `Region::end` between stopping the timer and looking at it.
  Keeping a measurement moves the features out of its context (`Dataset::insert` takes them by reference and moves them):
  the synchronous context of a region is left without features until they are set again.
  The draws a call consumes are part of the call. The build is one with a device timer for asynchronous contexts
  (without one, `TimingType` is synchronous only). The OS never fails to open or write a file.

## Which code is modelled

| Source | Modelled | Not modelled |
|---|---|---|
| `src/Dataset.cpp`, `include/apollo/Dataset.h` | all functions | - |
| `src/helpers/Parser.cpp`, `Parser.h` | all functions | - |
| `src/helpers/OutputFormatter.h` | only the text it produces | its template machinery |
| `src/Region.cpp`, `include/apollo/Region.h` | all functions, all callbacks through the timers, the streams and files of traces | the text of log messages |
| `src/Apollo.cpp` | start-up settings, training, region registry, shut-down, collective training over MPI, the C interface | OpenMP thread queries, `ENABLE_PERF_CNTRS` |
| `test/apollo-test.cpp`, `test/apollo-test-mpi.cpp` | the calls made and the verdict | the waiting, other output |
| `test/apollo-test-simple.cpp` | the calls made | output |
| `test/test-cuda.cpp`, `test/test-hip.cpp` | the calls made, the device being in time or late | arrays, copies, kernels, the comparison of results |
| `test/apollo-overhead.cpp` | all calls, the arguments as numbers, the exit status | the timings and the output |
| `HOWTO.md` | the model strings it documents, the training loop of lines 66-90 | build instructions, RAJA |
| `src/timers/*` | synchronous timer; the CUDA/HIP timers as one "event" timer | the device API |
| `src/ModelFactory.cpp`, `src/models/{Static,Random,RoundRobin,Optimal,DatasetMap,DecisionTree,RandomForest}.cpp` | all functions | the generators behind Random (draws are a parameter) |
| `src/models/impl/DecisionTreeImpl.cpp` | training, evaluation, save, load, source generation | compiling and dlopening the generated source |
| `src/models/impl/RandomForestImpl.cpp` | all functions | the mt19937 algorithm (draws are a parameter) |
| `src/models/{DecisionTree,RandomForest}.cpp` with ENABLE_OPENCV, `RegressionTree.cpp` | all functions | OpenCV itself (a parameter) |
| `src/models/PolicyNet.cpp` | all functions | the generators behind the initial weights and std::discrete_distribution (parameters) |
| `src/connectors/kokkos/kokkos-connector.cpp` | variable declarations, candidate sets, requests, ends of contexts, argument parsing, start-up | deep copies, what a fence does, tool events that only log, the value of std::hash (a parameter) |
| `src/python/modeling/create-dataset.py` | reading, putting together, selection of columns, the four aggregations, the loop over regions (without aggregation) | progress output, conversion of texts to numbers by pandas, the text layout (a specification in C11) |
| `src/python/analysis/rfc2dot_opencv.py`, `dtree2dot.py`, `rfc2dot.py` | the nodes and edges written | the text of labels, reading of the files |
| `src/python/analysis/analyze-traces.py` | the files read, the time of each static policy, the best static policy, the choice of best policies and `--write-opt`; times, accuracy and relaxed accuracy of models that explore (AccuracyM), histograms (HistogramM), speedups (SpeedupM) | printing, plots; pandas' reading of numbers is a parameter |
| `src/python/analysis/plot-trace.py` | the rows used, the bars and their labels, the name of the file | the look of the plots, titles but for the unit, numpy's mean and formatting (parameters), parts without rows |
| `src/python/analysis/run-exhaustive.py` | the settings of the static runs; the RoundRobin run as any run of the runtime (C146) | starting processes |

## Per property

* **C01 Measurements of one key are an exponential moving average.** Model `DatasetM.insert` over a sorted association list with the std::map comparator; prove `lookup k (inserts h) = fold ema (filter k h)` by induction on h.
* **C02 A dataset holds one entry per key, in key order.** Same model; sortedness invariant over all op histories; size = length of nodup key list.
* **C03 The moving average stays inside the range of its measurements.** Flocq: exactness of multiplication by 1/2 above 2^-1021, monotonicity of rounding; induction over the sequence. Counter-example by computation for subnormals.
* **C04 The best policy of a features vector minimises the metric, lowest policy index on ties.** Model the loop with its three outputs; compare with a spec by quantification over stored entries.
* **C05 A NaN metric on the lowest policy index hides every better policy (defect).** Concrete witness, by computation.
* **C06 Merging datasets.** Model merge as fold of insert over the source map; pointwise spec.
* **C07 The tokenizer returns exactly the next whitespace-delimited token.** Byte-stream model of getNextToken; induction over the stream.
* **C08 The tokenizer never writes past its 64-byte buffer.** Same; the buffer writes are explicit in the model (index checked).
* **C09 Datasets with at most one feature survive a store/load cycle up to printing.** Writer model (exact %.6g conversion) and loader model; parser-combinator style lemmas per token; then the float facts.
* **C10 Datasets with two or more features cannot be reloaded (defect).** Universal theorem over writer+loader models.
* **C11 Space-separated dataset files load for any number of features.** Independent writer for the Python layout; loader lemma.
* **C12 A store/load cycle can merge distinct measurements (defect).** Concrete witness by computation.
* **C13 A truncated dataset file is never accepted.** Prefix lemma for each token of the loader; theorem over all prefixes.
* **C14 Model-selection strings parse to their name and parameters.** String model of find/substr loop.
* **C15 Unknown parameters are always rejected.** Same, with validate as the table in the code.
* **C16 Static always returns one in-range policy.** Factory model + getIndex; induction over calls.
* **C17 RoundRobin cycles fairly.** Arithmetic induction; counting lemma.
* **C18 Policies returned to the application are in range.** Invariant of the whole runtime transition system.
* **C19 DecisionTree and RandomForest explore, then exploit, and train once.** Invariant/frame lemmas of the runtime transition system.
* **C20 A trained tree respects max_depth and partitions its samples.** Model split/build_tree with an arbitrary admissible sort; inductive predicate on trees.
* **C21 Training a tree never fails an assertion.** Bound the binary32 gini/impurity from above by a strict inequality; Flocq error analysis.
* **C22 Every trained tree predicts one constant policy (defect).** Model keeps the moved-from parameter; theorem over all trainings.
* **C23 Tuning by DecisionTree does not find the fastest policy (defect).** Concrete history.
* **C24 Split thresholds can misroute the samples they separate (defect).** Flocq rounding monotonicity; witnesses by computation.
* **C25 A saved tree loads back with the same structure.** Writer/parser models, induction on trees.
* **C26 A stored threshold can change a loaded model's decision (defect).** Witness by computation.
* **C27 RandomForest returns the plurality vote, lowest class on ties.** Vote loop model; arg-max spec.
* **C28 RandomForest training is deterministic and forests survive save/load.** Function of inputs only; writer/parser models.
* **C29 A retrained forest cannot be reloaded (defect).** Writer/parser models.
* **C30 Every finished execution is recorded exactly once.** Runtime transition system with environment completion events; ghost-free multiset accounting on traces.
* **C31 Measurements of a well-behaved synchronous client are attributed correctly.** Refinement to a list of triples.
* **C32 Forgetting getPolicyIndex records a stale policy (defect).** Runtime transition system.
* **C33 Collecting an asynchronous context breaks a synchronous execution in flight (defect).** Concrete schedule (and a universal form over schedules if feasible).
* **C34 Auto-training fires exactly when configured.** Characterisation of the auto-train decision.
* **C35 Execution indices count begin calls.** Counting invariants.
* **C36 Region names are truncated to 63 characters and only the first region of a name is registered (defect).** Registry model.
* **C37 Destroying one region switches off periodic training for all and leaves a dangling registration (defect).** Registry model; use-after-free outcome.
* **C38 Configuration is consistent after start-up.** Function from environment to configuration.
* **C39 MPI measurement packing round-trips.** Packing writes into explicit buffers of possibly unwritten bytes; the library's layout is a parameter; induction over regions and measurements.
* **C40 Collective training merges every other rank's data and only that.** Gather loop model.
* **C41 Ranks can disagree after collective training (defect).** Witness by computation.
* **C42 Policy network outputs are a probability distribution.** Network code written once over an abstract number structure, instantiated with Reals.
* **C43 Policy network gradients are the true policy gradient.** Coquelicot derivatives of the Reals instance.
* **C44 The reward baseline is a weighted average of batch rewards.** Reals instance.
* **C45 Cached action probabilities equal a fresh evaluation.** Binary64 instance with libm as a parameter; cache invariant.
* **C46 Loading a network keeps stale cached probabilities (defect).** Witness history, for any libm with stated sanity.
* **C47 Feature encoding is injective on integer parts.** Btrunc-based encoding model.
* **C48 A stored network loads back bit for bit.** Byte-level file model.
* **C49 Optimal replays its file.** Getline/stoi model.
* **C50 DatasetMap returns the measured best policy.** Uses C04.
* **C51 Models are loaded from where they were stored.** String model of the two path computations.
* **C52 Generated tree code agrees with the interpreter when thresholds have six digits.** Model of the emitted code as an expression tree with its printed thresholds, evaluated by C semantics of `if (features[i] < (float) t)`.
* **C53 Kokkos tuning choices cover the candidate space exactly once.** Mixed radix arithmetic.
* **C54 Kokkos integer ranges produce values outside the declared range (defect).** Integer model of range loops.
* **C55 Kokkos runs abort once a model has been stored (defect).** Path passed through parsePolicyModel and the factory.
* **C56 Reading a dataset file always terminates.** Every token read consumes input; fuel bounded by the length of the stream.
* **C57 A dataset with a subnormal number cannot be reloaded (defect).** Concrete witness by computation.
* **C58 A trained tree depends only on the multiset of its samples.** Sorted permutations cut at a value boundary are permutations of each other; induction on build_tree.
* **C59 A trained tree can always be saved.** Counts of every node built have one entry per class; the writer only indexes those.
* **C60 The policy network does not check the number of features (defect).** Unfold the first dot product up to the missing input; the output reads only the first F*64 inputs.
* **C61 A threshold above 1 switches the policy network off.** Rewards are in (0,1], so the baseline never reaches the threshold; induction over the history.
* **C62 The first training step is an ascent step of known size.** One Adam step from zero moments cancels both bias corrections.
* **C63 Within its sizes the policy network never leaves its arrays.** Sizes invariant over histories.
* **C64 Network training is the Adam method on the policy gradient.** Closed form of the moments by induction over the steps.
* **C65 The CSV trace has one line per measurement.** Invariant: the trace text of a region is the header and the lines of its measurements.
* **C66 A single model for all regions returns policies a region does not have (defect).** Train step of the runtime and two concrete runs.
* **C67 Every run of the Kokkos connector is a run of the runtime.** Invariant between the connector's tables and the history; each call unfolds to its runtime calls.
* **C68 A Kokkos flush trains every problem still exploring.** Refinement, then the exact effect of Apollo::train region by region.
* **C69 Kokkos contexts of one problem are mixed up (defect).** Refinement; the synchronous context of a region is shared.
* **C70 What the Kokkos connector starts with.** Unfold the setenv/getenv chain; induction over the arguments.
* **C71 Static models answer one policy.** Static models are never replaced; invariant over runs.
* **C72 Kokkos requests that are undefined (defect).** Unfold the request up to the failing access.
* **C73 A Kokkos flush rate of 0 breaks every end of context (defect).** Unfold the end of a context.
* **C74 Kokkos flushes are undefined for string contexts (defect).** A feature of the stored measurement survives into the best policies that the trace prints.
* **C75 Kokkos floating-point ranges ignore their bounds (defect).** Flocq: the loop is exact on integers below 2^50; the epsilon is absorbed by rounding.
* **C76 The runtime only writes its own files.** Every file write of the runtime is one of six forms.
* **C77 Traces are undefined for large features (defect).** Unfold training and getPolicyIndex up to the conversion.
* **C78 Gathering works only if every buffer is exactly filled (defect).** Bytes written against bytes asked for, from the position invariant of packing and unpacking.
* **C79 Two ranks agree after gathering.** Commutativity of the average of two.
* **C80 Gathered metrics stay between those of the ranks.** C03 applied to the gathered history.
* **C81 Collective training can choose a policy the region does not have (defect).** Witness by computation.
* **C82 Executions pending on a device are not shared by collective training (defect).** Witness by computation.
* **C83 Clients that keep to the rules never break the runtime.** An invariant over runs (Proofs/SafeWorld.v, SafeCollect.v, SafeRuns.v, SafeSteps.v) relating what the client knows (Spec/SafeClient.v: regions, open contexts, features given) to the world; every model returns and trains without failing under it (SafeModels.v). The bound 2^24 keeps the single-precision sample counts of tree training exact and the number of trainings of a network below what its step counter holds.
* **C84 Data sets kept between runs come back only with at most one feature (defect).** The files written by destructors are followed through shutdown (Proofs/RuntimePersist.v); names are distinct in the registry, so no later destruction overwrites a file. Reloading is C09 (at most one feature) and C10 (two or more) of the file format applied at region creation.
* **C85 The bundled test program reports FAILED (defect).** The calls of the program are a list of runtime calls (Model/TestM.v). That the run succeeds is C83; the tree has data when trained (Proofs/TestVerdict.v) and then answers one policy (C22, C23), which is in range (C18); counting is computation.
* **C86 The trace of gathering lists what every rank sent, and is undefined for features that do not fit in an int (defect).** The loop over the received buffer is followed record by record (Proofs/MpiTrace.v): with the round trip of packing (C39) the text is that of the data sent; a conversion that does not fit is undefined, everything before it succeeds (C40).
* **C87 Kokkos kernels are fenced only until the next training (defect).** The counter of new problems is followed along the calls (Proofs/KokkosFences.v) beside the invariant of C67; a problem with a stored model aborts (C55), so every new problem counts.
* **C88 Documented model strings create the documented models.** The documentation as a relation between items and model (Spec/ModelDocs.v), with its own reading of numerals; the parser is C14, the float conversion Proofs/DecimalRead.v.
* **C89 A trained tree or forest only answers policies that were measured.** An invariant on each region (every label of its trees has a metric) carried over all calls (Proofs/Measured.v).
* **C90 The documented training loop never tries another policy (defect).** Model/LoopM.v is the loop as calls; C83 gives the run, C31 that the first training sees only policy 0, C89 the rest.
* **C91 The traces of policies and of best policies hold exactly what happened.** Spec/TraceSpec.v gives the text of the files; Proofs/Reports.v shows which file each call writes (Proofs/RuntimeFiles.v) and that the loop over regions with distinct names never overwrites a report.
* **C92 The C interface runs the synchronous context of a region and nothing else.** Model/CInterfaceM.v maps the C functions to member calls; Spec/CClient.v says from the calls alone which regions are open; Proofs/CFacts.v shows that the current context of a region is its synchronous one exactly while it is open, and reduces to C83.
* **C93 A model built on OpenCV is trained on the best policies and answers from its trained object.** Model/OpenCvM.v models the ENABLE_OPENCV branches over a record of library functions and matrices of 32-bit cells; Spec/OpenCvSpec.v reads the matrices back; Proofs/OpenCvFacts.v follows the held object over the calls.
* **C94 With OpenCV a loaded model is dropped (defect).** From the object invariant of C93: load never changes it.
* **C95 The time model is trained on policy numbers instead of times (defect).** Value of a float with small bits by Flocq; a parallel fold over two data sets for the order of metrics.
* **C96 A tree or forest created from a file is the one that loads it.** Spec/ModelFileSpec.v says when two trained models cannot be told apart; Proofs/ModelFileFacts.v compares the two ways.
* **C97 A stored tree is not checked against the number of policies (defect).** The same comparison for two numbers of policies; for forests the words of a saved file up to the classes.
* **C98 Trained trees take the best split at every node, up to rounding.** Spec/GreedySpec.v has the real-valued impurity and the trees grown by it; Proofs/TreeGreedy.v bounds the rounding of the scores and shows that the scan visits every division.
* **C99 The bundled benchmark evaluates its tree without features (defect).** Model/OverheadM.v is the program; Proofs/OverheadFacts.v executes it symbolically, finds the data set, and C98 says when the root is a leaf.
* **C100 A device timer on the synchronous context is read before it is ready (defect).** Model/GpuTestM.v: `install_timer`, `end_installed` (end() whatever the timer; equal to `end_context` for clocks and heap contexts), the two programs; symbolic execution as for 99.
* **C101 Tree and forest files are read to an end, truncated ones are never accepted, and what follows is ignored.** Proofs/TreeFileScan.v: each parsing function consumes a word and gives the same answer on longer input; the fuel covers the input.
* **C102 Of the classes a forest file lists only the last is checked (defect).** Spec/ForestFileSpec.v: the line of classes; the text up to the first bracket is the head.
* **C103 Numbers in files are read as the nearest number their format has, or rejected.** Spec/NumeralSpec.v: grammar of numerals with exact real values; the library functions are modelled (trusted to follow the C and C++ standards).
* **C104 Every job halts, in one and the same state whatever the order of the ranks' steps.** Model/JobM.v: a call of a rank returns or waits in the exchange; steps of ranks in any order; proved by a measure and a diamond property.
* **C105 With collective training and a global period a job hangs unless all ranks reach the period or none does (defect).** Spec/JobSpec.v: what a rank measures is defined by its run alone, with training off.
* **C106 Equal numbers of executions on all ranks do not prevent the hang (defect).** Witness by computation.
* **C107 A rank without collective training, or one that never calls for it, runs in a job as by itself.** A simulation of calls.
* **C108 Ranks that run at their own pace end as the events of the job in order say.** Ties the ordered events of Model/MpiM.v (C40, C41, C78-C82) to Model/JobM.v.
* **C109 The time of a synchronous execution is never negative and is exact up to a bound that grows with the clock.** Spec/TimerSpec.v in real numbers; every rounding of TimerSync bounded with Flocq.
* **C110 With one model for all regions, or with retraining in a build without OpenCV, no region can be trained (defect).** Spec/BlockedSpec.v; the end of an execution follows C34.
* **C111 With one model for all regions, training without measurements is undefined (defect).** Stated as never returning; the example is undefined behaviour.
* **C112 With one model for all regions, training leaves out executions still to be collected (defect).** Beside C66, which says with what data the model is trained.
* **C113 The simple bundled program runs to its end and prints PASSED.** Model/SimpleTestM.v; through C83 and C23.
* **C114 The bundled program for jobs never prints PASSED (defect).** C85 for jobs of [MpiM]; the events of a job may interleave in any order.
* **C115 A trained random forest gives one answer (defect).** Counterpart of C22 and C23 for forests.
* **C116 With a period for all regions, kept measurements are read but not trained on (defect).** The creation of a region in [new_region], step by step.
* **C117 Training a forest trains it twice when collecting has trained it already, and the stored model then stops its reader (defect).** Through [train_body]; the file part through C28.
* **C118 A training step moves no parameter of the policy network further than a fixed number of learning rates.** Real arithmetic; Cauchy-Schwarz on the two averages of a step.
* **C119 Times reported by devices are measured exactly up to one rounding and in their order.** [timer_done] and the log of C30.
* **C120 The first iteration of the bundled test program tries every pair and its measurements tell every right policy, which training then forgets (defect).** [first_iteration]: nothing trains before the request, the exploring model takes turns; time bounds of C109.
* **C121 A policy always measured faster is the best one of its features, but one slow last execution undoes any number of fast ones.** History form of C01 with the range of averages (C03).
* **C122 min_training_data counts distinct pairs of features and policy, not measurements (defect).** Invariant [lit]: untrained exactly while the data set is smaller than n; the data set is that of the measurements taken (C31).
* **C123 A measurement that is kept takes the features of its context with it (defect).** Invariant of C30: the features of a context are a function of the calls and of which measurements were kept.
* **C124 Training a tree on a vector that does not fit the first one is undefined, as after a measurement without features (defect).** The impurity of two classes is at least 1/n, above the error bound of C98; every vector is read by the sort of each feature.
* **C125 What explore= accepts decides how, and whether, a tree or a forest explores (defect).** Run-level answers of any explorer (C19), specialised to the models the factory makes.
* **C126 A policy network learns nothing from equal times, and from two different ones only about the two policies.** Rewards minus a baseline equal to them are 0, so all gradients, moments and moves are; the output gradients of two equal rows cancel but for the two policies.
* **C127 The rounded outputs of a policy network are a distribution up to rounding, in the order of the outputs, or none is a number.** Softmax row by row: the differences to the maximum are at most 0, so the sum is between 1 and m and each quotient rounds within half a unit.
* **C128 One time that is not a number spoils a policy network for good (defect).** NaN is carried by every operation from the reward to all output biases, and Adam keeps a NaN parameter NaN.
* **C129 What its inputs never show a policy network (defect).** The gradient of a weight is a sum of products with its input; zero inputs and zero biases give zero outputs in every layer.
* **C130 A tree is not checked against the features it is asked about (defect).** Following the way through a tree leaves its evaluation unchanged; every way stops at a node that answers or at one beyond the vector.
* **C131 Metrics far from zero teach a policy network nothing or spoil it (defect).** Training depends on metrics only through their rewards; plus infinity or NaN is kept by all steps of the average, so a difference of two of them gives a NaN gradient.
* **C132 Data sets made from the traces of several regions mix up columns (defect).** Reading a written trace gives back its fields; the columns of traces put together are those of the first, then the further features; from there the columns kept and the cells of each row.
* **C133 What the aggregations keep of the measurements.** Grouping by insertion keeps groups sorted, each holding the rows with an equal key in order; then the least of a group.
* **C134 create-dataset.py fails on every directory of traces (defect).** The cells of the column region are known for both kinds of files; a missing one is reached in the loop before any region that appears later. The columns only the trace of all regions has are dropped for each region.
* **C135 rfc2dot_opencv.py cannot draw most forests (defect).** Invariant of the stack: deeper nodes above the parent; the part that comes last leaves the parent of the last node on top.
* **C136 dtree2dot.py and rfc2dot.py draw the trees stored.** Names are ways from the root, and left and right never begin alike; induction over trees.
* **C137 The file of best policies makes an Optimal model use a fastest policy.** The first of equal keys in a sorted list is least; distinct indices in increasing order without a gap are 0, 1, and so on; then C49.
* **C138 analyze-traces.py counts for policy 0 what was run for policies a region does not have (defect).** Patterns with stars as splittings of the name; the reading of traces of C132; names of static models end in the policy used.
* **C139 The time of the best choices is least, but a single policy can be reported to take less (defect).** Each best choice is charged to an execution of the run; distinct choices to distinct ones.
* **C140 The file of a trace is its region's only while no other region of that name is there (defect).** Streams with a position and a buffer over files; what no call takes back, from the runtime; invariants over single events with hand-overs anywhere.
* **C141 The policy network credits measurements of policies it does not have to other samples or to none (defect).** The array as a function of its places after each row; later rows overwrite what earlier ones added to them.
* **C142 plot-trace.py counts every execution in the right bar, but labels it in the wrong unit and overwrites its plots (defect).** Model/PlotTraceM.v over the table of CreateDatasetM; Proofs/PlotTraceFacts.v shows that strides through labels grouped by policy are the labels of one feature.
* **C143 Kokkos problems whose names agree in 63 characters with an earlier one explore forever (defect).** Proofs/KokkosPrefix.v: over the runtime history behind a run of the connector, no call made for Kokkos trains a region that is not registered.
* **C144 analyze-traces.py counts a tree's explorations as its choices (defect).** Model/AccuracyM.v; Proofs/AccuracyFacts.v: rows of all traces through the columns that matter, C65 for the traces of the runtime, C137 for the fastest policies.
* **C145 The relaxed accuracy of analyze-traces.py leaves out executions that beat the best (defect).** Proofs/RelaxedFloats.v: the rounding errors of the difference, the product and the quotient; Proofs/RelaxedWhole.v: no error for whole times; Proofs/RelaxedFacts.v: as C144 with the times.
* **C146 analyze-traces.py looks for traces that no run makes (defect).** Spec/UntrainedSpec.v; Proofs/UntrainedFacts.v: as C144 for traces without rows of trees.
* **C147 A run that follows the file of best policies is reported to be accurate, but for ties.** Spec/OptimalReportSpec.v; Proofs/OptimalReportFacts.v: the file determines the policies, the rows kept are one for each execution.
* **C148 Regions whose model learns nothing answer the same with and without training.** Proofs/UnlearningFacts.v: training leaves such a model as it is, so the answers in a run are those of the model alone.
* **C149 The histograms of policies leave out what --nstatic does not cover.** Model/HistogramM.v; Spec/HistogramSpec.v; Proofs/HistogramFacts.v.
* **C150 The speedups say which was faster, and a rank without executions ends the analysis (defect).** Model/SpeedupM.v; Spec/SpeedupSpec.v; Proofs/SpeedupFacts.v.
