# Formal model of laudv/bitboost in Rocq (Coq 8.16.1)

## 1. Approach

The Rust source in /repo is read as text and re-expressed, function by function, as total computable Gallina functions.  Every definition
of the model cites the file and lines it models and says where it simplifies.  The code was neither built nor run: that the model says
what the code does is by inspection (the citations are there for that), everything after that is checked by Coq's kernel.

* `theories/*Model.v` (and `Base.v`, `Num.v`, `F32.v`, `Config.v`): the model; definitions only, no proofs.
* `theories/*Spec.v`: small independent specifications (sets of positions, sums over lists, formulas over the reals, what a client of the
  API has seen), used to state the theorems.
* `theories/*Proofs*.v`: lemmas.
* `theories/*Props.v`: the property theorems (`Theorem Cnn_...`), each with a comment in English, `Example`s that meet its hypotheses in a
  concrete, non-trivial case, and `Print Assumptions`.
* `_partial`: a weaker statement than the property.  `_refuted`: a theorem that a property (or the stated part of it) is false of the
  code, with the reason.  A refutation is a statement about the modelled code like any other.

### Conventions

* A panic, an out-of-bounds raw-pointer access (undefined behaviour) and running out of fuel are explicit values of the type `res`
  (`Ok`, `Panic`, `UB`, `OutOfFuel`).  Theorems say `= Ok ...`, or `safe` (neither `UB` nor `OutOfFuel`).  Loops without an evident bound take fuel, and
  theorems show that the fuel given never runs out.
* `dbg : bool` is the build mode.  `safety_check!` is an `assert!` (lib.rs:9) in both.  Where the two modes differ (overflow checks on u32,
  debug_assert) the model takes `dbg` and the theorems quantify over it or name the mode.
* Bytes, words and registers are `N`; lengths and indices (`usize`) are `nat`, without wrap-around at 2^64.  Wrap-around of u32/u64 SIMD lanes
  and of the u32 counts is modelled explicitly.
* Memory is little endian (x86-64, which the crate requires for its AVX2 intrinsics).
* `f32` is IEEE-754 binary32 as formalised by Flocq's `BinarySingleNaN` (24, 128), round to nearest even, with one NaN (the code does not look at
  NaN payloads).  The numerical code of the model takes the arithmetic as an argument (`numops`): `f32ops` is what the program computes, `Rops`
  exact real arithmetic, for statements the program satisfies up to rounding.  Each note in MANIFEST.json says which one a theorem is about.
* Random numbers (`rng`), `exp`, `ln`, `f32::from_str`, the `min`/`max` of NaN and the tokens of a csv file are arguments: theorems hold for all of them, or name what they need.
* Parallelism (rayon `par_iter` + `Mutex`) is an arbitrary permutation of the jobs (`sched`), chosen anew for every iteration and node.
* Iteration over a `HashMap`-like structure does not occur in the code.

## 2. Trusted base

1. Coq 8.16.1's kernel (including its virtual machine, for `vm_compute` in examples and refutations by witness) and its standard library.
2. The axioms that `Print Assumptions` lists.  There are four, all of the standard library, all brought in by the real numbers (and by Flocq, whose proofs use them):
   `ClassicalDedekindReals.sig_forall_dec`, `ClassicalDedekindReals.sig_not_dec`, `Classical_Prop.classic`,
   `FunctionalExtensionality.functional_extensionality_dep`.  ASSUMPTIONS.md lists, for every theorem of MANIFEST.json, which of them it uses (generated by
   `tools/assumptions.py`); most theorems use none.  No axiom, parameter, admitted proof, functor or module type is ours.
   Libraries used: the standard library and Flocq (definitions and proved lemmas only).
3. The reading of the Rust code into the model (section 3), of the intrinsics of `core::arch::x86_64` from Intel's manual, of rayon's guarantee that all jobs run exactly once, and of the libraries named in section 4.

## 3. What is modelled

| source | model | lines not modelled |
|---|---|---|
| src/bitblock.rs | BitModel.v | `Debug`, alignment of the allocation |
| src/bitset.rs, src/bitslice.rs | BitModel.v, SliceModel.v, ScaledModel.v | raw-pointer accessors that only wrap the modelled ones |
| src/slice_store.rs | StoreModel.v, SliceModel.v, IterModel.v, ScaledModel.v, SimdModel.v | `cast`, `Deref` |
| src/simd.rs, src/count_and_sum.rs | SimdModel.v, SliceModel.v | debug printing |
| src/binner.rs | BinnerModel.v, DebugModel.v | |
| src/data.rs | DataModel.v | opening files, csv syntax (tokens are an argument), feature names, `is_compatible` (`unimplemented!`) |
| src/dataset.rs | DatasetModel.v, DebugModel.v (debug build), ReservoirModel.v (the two samplers nothing calls) | |
| src/tree/tree.rs | TreeModel.v, DebugModel.v | `Debug` |
| src/tree/learner.rs | LearnerModel.v (every node has its own arrays), NodeStoreModel.v (nodes refer to slices of the four stores; C55 proves the two equal) | debug printing |
| src/tree/learn/ | - | skeleton of a rewrite, nothing calls it |
| src/objective.rs, src/metric.rs | ObjectiveModel.v, MetricModel.v | `exp`, `ln` are arguments |
| src/boost.rs | BoostModel.v | timings, printing (the metric values are modelled) |
| src/config.rs | Config.v, ConfigModel.v | `f32::from_str` and printing of floats are arguments |
| src/c_api.rs | CapiModel.v | logging, out of memory |
| python/bitboost/bitboost.py | PyModel.v (RawBitBoost, copies of its objects), CapiModel.v (train, predict on their own) | locating the library, documentation |
| python/bitboost/sklearn.py | PyModel.v (fit, predict) | scikit-learn's own checks |
| src/bin/run.rs | RunModel | timings, the logger, the layout of what is printed; the unused print_predictions functions |

## 4. What is outside every theorem

Out of memory, `usize` overflow (more than 2^63 elements), stack depth, wall clock, logging and printed layout, the file system, the `csv` crate's syntax,
`rand`'s generator (any sequence of draws is allowed), rayon's scheduler (any order is allowed, each job exactly once), unwinding itself
(`catch_unwind` is taken to catch every panic, i.e. the crate is built with panic=unwind), and the compiler.

## 5. Plan per property

| id | modelled | proof idea |
|----|----------|------------|
| C01 | bit functions on bytes/blocks/block arrays; bit-vector resize, count_ones, is_zero (StorageProps) | bit-level semantics of memory (`bitAt`), `N.testbit` algebra |
| C02 | one_bits / alloc_one_bits loop | loop invariant over u64 words, bit-level |
| C03 | Bitset | enable: as C01; disable: refuted by witness |
| C04 | from_iter / from_bool_iter; block constructors from slices and u64 words, store constructor (StorageProps) | induction over the words of a block |
| C05 | blocks_required_for | `lia` |
| C06 | BitSlice get_value/set_value for w in 1,2,4,8; resize, get_block, zeroed slices (StorageProps) | injectivity of (index,lane) -> bit position |
| C07 | sum_masked | popcount as sum of bits, exchange of sums |
| C08-C10 | simd.rs kernels incl. registers, lanes, loads, gathers | carry-save invariant per lane, no-overflow bound |
| C11 | count_and_sum.rs | the same invariant + merge join invariant |
| C12 | for_each_index*, IndexIter | lowest-set-bit extraction invariant |
| C13, C45 | SliceStore as a state machine | invariant over all histories |
| C14 | HistStore | prefix sums |
| C15,C16,C18,C19 | split_examples, compress_examples, histograms | denotation of a (compressed) node as a set of examples |
| C17 | build_histograms; whole runs of boost.rs (C16_model, C17_model, C17_release) | permutation invariance of writes to distinct cells; simulation of one tree lifted over the iterations |
| C20 | find_best_split | loop invariant; NaN-aware comparison |
| C18-C20, C30, C31 in f32 | the same model code at `f32ops` | calculus of absolute rounding errors (ErrProofs.v: every f32 operation as a real within a bound), error of the back-projection and the discretisation (ScaledErrProofs.v), induction over the growth of a tree: each derivation by subtraction adds one unit per level (GrownErrProofs.v), error of a gain (GainErrProofs.v); statements in ErrSpec.v, ErrProps.v |
| C21-C23 | Tree | heap-index invariants |
| C24 | dataset bit vectors vs predict_leaf_id | per feature type; refuted / partial where false |
| C25,C26,C42,C43 | training loop, boosting loop | loop invariants |
| C27-C29,C41,C46,C47 | Dataset | induction over histories, permutations |
| C30-C34 | discretisation, binner | real and binary32 arithmetic |
| C35,C36 | Data | fold invariants |
| C37,C38 | Config, C API | parsers over strings; state machine over histories of calls |
| C39,C40,C44 | metrics, objectives | real analysis, algebra; binary32 facts from Flocq |
| C48 | boosting loop | invariant: reports = metric of the running predictions |
| C49 | everything, success | totality lemma per function, composed; for f32 also a bound on predictions and residuals per iteration (each example's prediction changes once per iteration); LoadSpec/LoadProofs/LoadProps start from the file: a sound csv file loads into a table that satisfies the hypotheses (C49_loaded, C49_from_file); C49_long_f32 replaces the doubling bound on predictions by the f32 version of C56 (FitErrProofs2); C49_median (MedianSpec/MedianProps): L1 and Huber succeed exactly while the residuals are not all equal |
| C50 | everything behind the C API | `safe` is compositional for checked accesses; unchecked ones by the invariants of C15-C19 and C13; the ledger a client keeps agrees with the heap |
| C51 | prediction of new tables (TreeModel, BoostModel) | trained trees are well-shaped for their features (`fit_tree`), which is kept by every split; predictions of one row depend on its values only, by induction on the path |
| C52 | the Python wrapper over the C API | an invariant: the ledger of C50 exists, live objects have distinct live addresses and rows at most those of the last matrix; prediction by C51 through what loading a matrix stores |
| C53 | `Dataset::update` of one feature within a due update | trace of the feature's own update, unchanged by later ones; histogram contents by induction on insertions; one pass over ascending ranks (C33), the f32 multiples of a non-negative step being ascending |
| C54 | `main`, `parse`, `load_data`, `single_tree`, `boost`, `summary` of bin/run.rs over arbitrary file systems | inversion of the request and C35, C37, C39, C40; C50 for safety; `single_tree` and one round of `boost_run` perform the same calls, training leaves the bias alone; settings other than `test` determine training |
| C55, C43 release | learner.rs once more with nodes as slices of the histogram, index, mask and gradient stores of one reused context (NodeStoreModel.v) | simulation: a relation between nodes and slices (disjoint slices with the nodes' arrays as contents, sizes, remaining room), one lemma per function, stack invariant for the peak of live histograms, node count for the number of slices |
| C56 | nothing new: boost.rs, objective.rs L2, learner.rs and tree.rs as already modelled, over the reals | each leaf value is the mean of the residuals of the examples routed to it (C25/C26), so with r in [0,2] the step r*mean does not increase the sum of squares of that group; sum over the groups, which partition the examples; induction over iterations. In f32: the rounding error of every operation of the leaf value and the update is relative to the residuals (FitErrProofs), the triangle inequality for the root of the sum of squares (NormProofs) adds them up (C56_round_f32, C56_rounds_f32, C56_model_f32; specification FitErrSpec) |
| C57 | nothing new (learner.rs train loop, tree.rs) | `greedy`, an inductive description of greedy growth; loop invariant with holes for the nodes on the stack; C18/C20 for the choice at each node |
| C58 | DebugModel.v: the data-set, binner, prediction and summing functions with the `debug_assert!`s the release model leaves out (lib.rs:18, binner.rs:107-117, dataset.rs:111,156,282,416, simd.rs:352-465, tree.rs:129) | simulation: on sound data each assertion holds; for the f32 rank assertion a relative-error bound for sums of non-negative floats (SumErrProofs.v); `dbg` monotonicity of the models that take a build mode |
| C59 | nothing new (dataset.rs, binner.rs, objective.rs, learner.rs, boost.rs as already modelled); RowSpec.v: tables with rows in another order | simulation of two runs: data-set states with the same split candidates and bins whose bitmaps are reordered, histograms inserted in another order by commutation, node positions related by the permutation, so the same histograms, splits and leaf values. In f32 for the absolute error: minima and maxima of non-NaN values other than -0 commute, the weights are all equal, counts are exact |
| C60 | nothing new (boost.rs, dataset.rs, learner.rs as already modelled); PrefixSpec.v: the settings that take part in learning | the functions of the model read only those settings (checked by conversion for every function that takes the configuration); the iterations are a fold, so a run of n is a run of k followed by n-k more, each of which appends one tree |
| C61 | nothing new (dataset.rs, learner.rs, boost.rs, tree.rs as already modelled); AlikeSpec.v: tables that agree on the informative columns | simulation of two runs whose data-set states differ only in the table they refer to; every access to the table during updates and splits is at an informative feature (invariant: the list of useful features), every split of a tree under construction is on one, so out-of-bag predictions agree; the simulation is for two objectives with equal gradients and leaf values, and is used again for C62 |
| C62 | nothing new (objective.rs, metric.rs, boost.rs as already modelled), over the reals; ShiftSpec.v: the same table with a constant added to the targets | residuals do not change when targets and predictions are shifted together; mean, limits and the quantile estimate move with the values (the bin of a value does not change); hence equal gradients, bounds and leaf values, and the simulation of C61 for two objectives gives equal trees |
| C63 | nothing new (dataset.rs, binner.rs, learner.rs, boost.rs as already modelled), over the reals; UnitSpec.v: tables, rows and models in other units | an affine map with positive slope keeps comparisons and the bin of every value, and maps bin borders to bin borders; hence equal bin counts, candidates that are the converted ones, equal bit vectors, histograms and split choices; a simulation of the data set, the learner and the booster with converted thresholds |
| C64 | as C63, objective.rs L1 | residuals are multiplied, so signs (the gradients) are the same and medians are multiplied; the simulation of C63 for two objectives with equal gradients and corresponding leaf values |
| C65 | nothing new (shuffle_first_k and the update in DatasetModel); SampleSpec.v: draws, counting, samples of a history | each draw picks one of the remaining elements, so the draws that select a given set are counted by induction (k!); the leftover random numbers do not influence the rest of the state, so the counts of consecutive updates multiply; success of every run from C49_dataset |
| C66 | nothing new (boost.rs, objective.rs, learner.rs as already modelled), over the reals; BoostingSpec.v: the tree boosting prescribes for given gradients and leaf fits | the running predictions are the predictions of the trees so far (C25); the tree is the greedy tree for the gradients (C57); leaves partition the examples, so each leaf value is computed from the predictions before the tree; C40 gives the gradients and leaf values of the objectives (BoostingProps.v: L2, L1, Binary; HuberProps.v: Huber, Hinge, the starting constants) |
| C67 | nothing new (boost.rs, objective.rs, learner.rs as already modelled), over the reals | as C56: the leaves partition the examples and each leaf value is computed from the predictions before the tree; the leaf value of L1 is a median up to the bin width (C40_l1_leaf), that of Huber is no worse than such a median (C40_huber_leaf); both losses are convex, so a fraction of the step keeps the bound |
| C68 | nothing new (boost.rs, objective.rs, dataset.rs, learner.rs as already modelled), over the reals | simulation: every state of the run on the converted target is the converted state of the run on the original one (gradients, bounds, bit planes, histograms, gains times a^2); categorical splits do not use the weights.  With numerical features it is false because of the constant added to the weights (C68_numerical_refuted, in f32 with a power of two as the unit) |
| C69 | nothing new (learner.rs, tree.rs, boost.rs as already modelled), f32 and reals | the node at each place of the tree is a function of the path (node_at); loop invariant: the tree has at each place within the depth the best split of the node there; the search for the best bin with a larger smallest gain finds the same bin or none (simulation of the two searches) |
| C70 | nothing new (dataset.rs, learner.rs, tree.rs, boost.rs as already modelled), f32 and reals | simulation of the two trainings: data sets, histograms, nodes and trees related by the renaming of features; the search for the best bin run over the features in two orders finds the same bin when no bins of different features tie (C70_ties_refuted: false with ties) |
| C71 | nothing new (data.rs, dataset.rs, learner.rs, tree.rs, boost.rs as already modelled), any arithmetic | simulation of the two trainings as in C70: constant columns are not useful, so the sampled features, jobs and histograms of the others coincide and those of the added columns stay empty; C71_csv: constant CSV columns are recognised as such |
| C72 | nothing new, f32 and exact arithmetic (any arithmetic whose `<` is a strict order) | simulation of the two trainings as in C71, with the copies' bins, masks and histograms equal to the originals'; a copy never beats its original because the search only replaces a split by a strictly better one (the best gain so far only grows, so all bins of the original stay settled); C72_csv: repeated CSV columns are copies |
| C73 | nothing new, f32 and exact arithmetic (any arithmetic that represents the codes exactly) | simulation of the two trainings: histograms of a renumbered column are those of the original at the renumbered bins and empty elsewhere; an empty bin is never the best split because its side of the split has no examples and min_examples_leaf is at least one; C73_csv: CSV columns with gaps are renumbered columns |
| C74 | ReservoirModel: both samplers, draw by draw | counting by induction on n: a selection without the last element comes from the same selection with any of the draws that keep it, a selection with the last element from each selection with one other element in its place |
| C75 | BoostModel, DatasetModel: skipped updates | a split is on a feature with bins (induction over the nodes of a tree); without an update only `dataset_new` sets bins, for low-cardinality features and without example sampling (invariant of the iterations); a tree without splits predicts one number |
| C76 | BoostModel, LearnerModel: the assertions of the first iteration | inversion of a successful first iteration with the invariant of reachable datasets; panics by C50_train (training never has undefined behaviour and terminates) |
| C77 | BoostModel, TreeModel, ObjectiveModel (L2, L1, Huber) | every row ends at a leaf of the grown tree (greedy_reach), whose value is the learning rate times the objective's value for some examples (round_leaf), which is within the range of the residuals; induction over the iterations with the exact running predictions (C25) and, for the linear bound, C56 |
| C78 | LearnerModel, BoostModel | the tree is greedy (train_greedy) with both sides of every split holding min_examples_leaf examples (exact counts, any arithmetic); the leaves share out the examples (greedy_shares); induction over the iterations carrying a reachable dataset |
| C79 | LearnerModel, TreeModel, BoostModel in f32 | a comparison with NaN or an infinite minimum is false, so the search keeps the empty split (best_none); the value of the first leaf is not finite, which set_node_value asserts (loop_unfinite) |
| C80 | LearnerModel, DatasetModel, BoostModel | every split is on an active feature (train_among); the active features are a sample of the informative ones (C27); induction over the iterations |
| C81 | LearnerModel, ObjectiveModel, BoostModel | two trainings side by side: the split search does not see the objective's state, so trees stay alike (loop_two); every leaf value is the rate times a number that only depends on the state before the tree (examples of the leaves are disjoint, C26) |
| C82 | LearnerModel, ObjectiveModel, TreeModel, BoostModel | invariant of the training loop and of the iterations: all values of all trees are zeros (finite products of zero: the code asserts that values are finite), scale 1, bias 0; adding such a value leaves a prediction where it is |

Nothing in the list is considered inexpressible.
