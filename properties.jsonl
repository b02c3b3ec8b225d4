{"id": "C01", "title": "Bit access laws", "statement": "Reading bit j of a bit block, bit-block array or bit vector after setting bit i to b returns b when i=j and the old value otherwise; an out-of-range position panics and never touches another bit.", "quantifier": "all block contents, all lengths, all positions i and j, both values", "why_tests_cant": "256+ positions times every block content; a wrong carry across a byte or block border shows up only for particular positions", "anchors": ["src/bitblock.rs get_bit enable_bit disable_bit set_bit BitBlock BitBlocks get_blockpos get_bitpos"]}
{"id": "C02", "title": "Zero and one initialisation", "statement": "zero_bits(n) holds only zeros; one_bits(n) (array and store versions) holds ones exactly at positions below n and zeros in all the padding up to the block border, for every n; n = 0 panics for the array constructors.", "quantifier": "all n > 0 (and the n = 0 panic)", "why_tests_cant": "the tail-masking loop has a different path for each n mod 256; tests try a handful", "anchors": ["src/bitblock.rs BitBlocks::one_bits zero_bits", "src/slice_store.rs BitBlockStore::alloc_one_bits alloc_zero_bits"]}
{"id": "C03", "title": "Bitset set algebra", "statement": "After enable_bit(i) a bitset reports i present and everything else unchanged; after disable_bit(i) it reports i absent and everything else unchanged.", "quantifier": "all bitsets and all positions", "why_tests_cant": "a property over all contents; the shipped test never calls disable_bit", "anchors": ["src/bitset.rs Bitset enable_bit disable_bit set_bit get_bit"]}
{"id": "C04", "title": "Building bit storage from iterators", "statement": "A bit block array built from an iterator of bools or integers holds, in order, the items of the iterator as far as the blocks have room, and zeros after the iterator ends.", "quantifier": "all iterators (finite lists of any length), all requested lengths, every integer width 8..128", "why_tests_cant": "all lengths and alignments of the iterator end relative to block borders", "anchors": ["src/bitblock.rs BitBlock::from_iter from_bool_iter BitBlocks::from_iter from_bool_iter from_slice"]}
{"id": "C05", "title": "Number of blocks required", "statement": "blocks_required_for(n) is the least number of 256-bit blocks holding n bits.", "quantifier": "all n", "why_tests_cant": "unbounded n", "anchors": ["src/bitblock.rs BitBlock::blocks_required_for"]}
{"id": "C06", "title": "Bitslice round trip and frame", "statement": "In a bit-sliced array of width 1, 2, 4 or 8, get_value(i) after set_value(i,v) returns v and get_value(j) for j<>i is unchanged; a value that does not fit the width is reduced modulo 2^width; lanes of different values never overlap.", "quantifier": "all widths, array lengths, positions, values and previous contents", "why_tests_cant": "the layout maps (index, lane) to (block, bit) with division by width-dependent constants; a collision needs particular index pairs", "anchors": ["src/bitslice.rs BitSlice", "src/slice_store.rs BitSlice get_value set_value BitSliceLayout1..8"]}
{"id": "C07", "title": "Bitslice block sum", "statement": "The masked sum of one 32-value block of a bitslice equals the sum of get_value over the positions of that block enabled in the mask.", "quantifier": "all widths, slices, blocks, masks", "why_tests_cant": "all contents and masks", "anchors": ["src/slice_store.rs BitSlice sum_masked", "src/bitslice.rs sum_masked"]}
{"id": "C08", "title": "Vectorised AND-count is the number of common elements", "statement": "Counting the ones of the conjunction of two bit vectors with the SIMD (Harley-Seal carry-save) kernel gives exactly the number of positions set in both, for every length, including tails shorter than 16 vector registers.", "quantifier": "all pairs of bit vectors of any length below 2^32 bits", "why_tests_cant": "the kernel has a 16-way unrolled loop, a remainder and carry-save state; tests sample a few random inputs", "anchors": ["src/simd.rs bitvec_count_and_uc csa harvey_seal_aux harvey_seal_64", "src/slice_store.rs BitVec::count_ones_and"]}
{"id": "C09", "title": "Vectorised masked bitslice sum", "statement": "sum of a bitslice over the conjunction of two masks computed with the SIMD kernel equals the sum of the stored values at the positions set in both masks, for widths 1, 2, 4 and 8.", "quantifier": "all widths, all slices, all masks, all lengths", "why_tests_cant": "register-lane weights are data independent but position dependent; error needs specific lane positions", "anchors": ["src/simd.rs btslce_sum_masked2_* reduce_*", "src/slice_store.rs BitSlice sum_all_masked2"]}
{"id": "C10", "title": "Compressed (index-gather) kernels agree with uncompressed ones", "statement": "The count and sum kernels taking a block-index list return what the uncompressed kernels return on the data expanded at those indices.", "quantifier": "all masks, values and index lists that are in range", "why_tests_cant": "gather of arbitrary indices; all combinations", "anchors": ["src/simd.rs bitvec_count_and_c btslce_sum_masked2_*_c", "src/slice_store.rs count_ones_and_compr sum_all_masked2_compr"]}
{"id": "C11", "title": "Generic count/sum module agrees with the specification", "statement": "count_and2 and sum_and3 (c00, c10 and c11 merge-join variants) return the size of the intersection, respectively the sum of the values on the intersection, of the sets their arguments denote.", "quantifier": "all inputs of every length; strictly increasing index lists for the compressed ones", "why_tests_cant": "merge join of arbitrary index lists plus an unrolled kernel", "anchors": ["src/count_and_sum.rs count_and2_* sum_and3_*"]}
{"id": "C12", "title": "Bit iteration enumerates exactly the set bits in order", "statement": "Each index iterator and for_each visitor of a bit vector yields exactly the positions (mapped through the block index list when compressed) of the set bits of its vector (or of the conjunction / difference with a mask), each once, in increasing order.", "quantifier": "all bit vectors, masks and index lists", "why_tests_cant": "all contents; termination", "anchors": ["src/slice_store.rs BitVec::index_iter* for_each_index* IndexIter"]}
{"id": "C13", "title": "Slice store safety for every history", "statement": "After any sequence of allocations, frees and resets of a slice store, live slices never overlap, lie inside the store, start at an aligned offset, have been given the requested initial contents, and allocating, freeing or writing one slice never changes the contents of another.", "quantifier": "all sequences of alloc/free/reset/write operations", "why_tests_cant": "free-list reuse depends on the whole history", "anchors": ["src/slice_store.rs SliceStore alloc_slice free_slice reset get_two_slices_mut"]}
{"id": "C14", "title": "Histogram store layout", "statement": "Histograms of different features in one allocation occupy disjoint ranges whose lengths are the configured numbers of bins and which cover the allocation; the range of (allocation, feature) is the same at every lookup.", "quantifier": "all bin-count lists, all allocations", "why_tests_cant": "all bin count vectors", "anchors": ["src/slice_store.rs HistStore for_features alloc_hists get_hist"]}
{"id": "C15", "title": "A split partitions the node", "statement": "After splitting a node the left child's examples are those of the parent enabled in (or disabled by, for the complemented case) the split mask and the right child's examples are exactly the others: disjoint, exhaustive, counts add up.", "quantifier": "all parent masks, feature masks, compression states", "why_tests_cant": "all bit patterns and compression decisions", "anchors": ["src/tree/learner.rs split_examples get_left_right_n2s"]}
{"id": "C16", "title": "Compression preserves a node's contents", "statement": "Compressing the example mask of a node drops only all-zero 32-example blocks: the set of examples, each example's discretised gradient and the count are unchanged.", "quantifier": "all masks, gradients and compression thresholds", "why_tests_cant": "all bit patterns", "anchors": ["src/tree/learner.rs compress_examples split_examples"]}
{"id": "C17", "title": "Parallel histogram construction is deterministic", "statement": "Building the histograms of a node in parallel over features gives the same histograms for every schedule.", "quantifier": "all interleavings/orders of the per-feature jobs", "why_tests_cant": "tests cannot enumerate schedules", "anchors": ["src/tree/learner.rs build_histograms", "src/slice_store.rs HistStore"]}
{"id": "C18", "title": "Histogram bins summarise the node", "statement": "The bin of (feature, value) in a freshly built histogram holds the number of node examples enabled in that bin's bit vector and, when that number is at least min_examples_leaf, the sum of their discretised gradients projected back linearly.", "quantifier": "all nodes, features, bins, compression states", "why_tests_cant": "all contents", "anchors": ["src/tree/learner.rs build_histograms get_grad_sum"]}
{"id": "C19", "title": "Derived sibling histogram", "statement": "The histogram of the right child obtained as parent minus left equals the histogram that would be built for it directly.", "quantifier": "all nodes and splits", "why_tests_cant": "all contents; error depends on threshold interplay", "anchors": ["src/tree/learner.rs derive_histograms", "src/slice_store.rs hists_subtract"]}
{"id": "C20", "title": "Best split selection", "statement": "The split chosen for a node has a gain strictly above min_gain, leaves at least min_examples_leaf examples on both sides, and no admissible candidate has a larger gain; no split is returned only if no admissible candidate exceeds min_gain.", "quantifier": "all histograms and parameters", "why_tests_cant": "all histogram contents, including NaN gains", "anchors": ["src/tree/learner.rs find_best_split get_gain"]}
{"id": "C21", "title": "Tree size bookkeeping", "statement": "For every sequence of node splits, the number of nodes is twice the number of internal nodes plus one, and leaves are one more than internal nodes; splitting only turns a leaf into an internal node.", "quantifier": "all split sequences", "why_tests_cant": "histories", "anchors": ["src/tree/tree.rs Tree split_node nnodes ninternal nleafs"]}
{"id": "C22", "title": "Prediction reaches a leaf", "statement": "Routing any example (including NaN values) down any trained tree terminates in at most max_depth steps at a node that is a leaf of the tree, without out-of-bounds access.", "quantifier": "all trees reachable by training operations, all examples", "why_tests_cant": "all trees and feature values", "anchors": ["src/tree/tree.rs predict_leaf_id predict_single"]}
{"id": "C23", "title": "Category values never seen in training", "statement": "A hi-cardinality categorical value that is not in the split's category set (including values above everything seen in training) is routed to the right child, never out of bounds.", "quantifier": "all trees, all category values", "why_tests_cant": "all values", "anchors": ["src/tree/tree.rs predict_leaf_id SplitCrit", "src/bitset.rs", "src/dataset.rs get_split_value"]}
{"id": "C24", "title": "Training and prediction route alike", "statement": "For every training example and every split, the child whose mask received the example in training is the child prediction sends it to.", "quantifier": "all datasets, splits, examples", "why_tests_cant": "all values, rounding and NaN cases", "anchors": ["src/dataset.rs update_num update_hicard_cat update_locard_cat get_split_value", "src/tree/tree.rs predict_leaf_id"]}
{"id": "C25", "title": "Running predictions equal the model's predictions", "statement": "After every boosting iteration the predictions kept by the objective for the training data equal what the model built so far would predict, in the same floating-point arithmetic.", "quantifier": "all numbers of iterations, trees and data", "why_tests_cant": "histories of updates", "anchors": ["src/boost.rs train train_one_iter", "src/objective.rs update_predictions", "src/tree/tree.rs predict_and"]}
{"id": "C26", "title": "Each training example ends in exactly one leaf", "statement": "When tree growing finishes each in-bag example belongs to exactly one leaf, and its prediction is updated exactly once with that leaf's value; every out-of-bag example is updated exactly once too.", "quantifier": "all runs of the growing loop", "why_tests_cant": "all split sequences", "anchors": ["src/tree/learner.rs train predict_leaf_value predict_child_leaf_values predict_out_of_bag"]}
{"id": "C27", "title": "Sampling without replacement", "statement": "The active-example and feature samples are duplicate free, in range, have the requested size and, for examples, are in increasing order; every index is either active or inactive.", "quantifier": "all random number streams", "why_tests_cant": "all random outcomes", "anchors": ["src/dataset.rs shuffle_first_k reservoir_sample Dataset::update"]}
{"id": "C28", "title": "Inactive examples are the complement", "statement": "The inactive-example iterator yields exactly the examples not in the active set, each once, in increasing order.", "quantifier": "all active sets", "why_tests_cant": "all subsets", "anchors": ["src/dataset.rs inactive_examples_iter InactiveExampleIter"]}
{"id": "C29", "title": "Resampling schedule", "statement": "The data set is resampled on the first update and thereafter exactly on every sample_freq-th one; with sample_freq=0 it is never sampled; otherwise the sample is left untouched.", "quantifier": "all update counts and frequencies", "why_tests_cant": "histories", "anchors": ["src/dataset.rs Dataset::update"]}
{"id": "C30", "title": "Gradient discretisation", "statement": "A discretised value is always within 0..2^w-1, is monotone in the input, saturates at the bounds, and its back-projection differs from the clamped input by at most half a quantisation step.", "quantifier": "all values, bounds, widths", "why_tests_cant": "real-valued inputs", "anchors": ["src/slice_store.rs set_scaled_value get_scaled_value linproj"]}
{"id": "C31", "title": "Back-projection is linear", "statement": "The back-projection of the sum and count of a set of discretised values equals the sum of the back-projections of the values (exact arithmetic).", "quantifier": "all multisets of values, bounds, widths", "why_tests_cant": "all sets", "anchors": ["src/slice_store.rs BitSliceLayout::linproj sum_all_masked2"]}
{"id": "C32", "title": "Binning is a total monotone map", "statement": "get_bin always returns a valid bin, is monotone in the value, and out-of-range values go to the first or last bin; the bins' counters add up to the number of insertions.", "quantifier": "all finite values, limits, bin counts", "why_tests_cant": "real-valued inputs", "anchors": ["src/binner.rs Binner get_bin insert"]}
{"id": "C33", "title": "Rank queries", "statement": "The bin returned for rank r is the first bin whose cumulative count exceeds r; for ascending ranks one pass gives the same answers as independent queries; the last bin when r is at least the total.", "quantifier": "all histograms, all rank sequences", "why_tests_cant": "all histograms", "anchors": ["src/binner.rs RankIter bin_with_rank rank_iter"]}
{"id": "C34", "title": "Approximate quantiles are within one bin", "statement": "The value the L1/quantile machinery reports for rank r is the upper edge (for the last bin: the lower edge) of the bin that contains the r-th smallest inserted value, so it is within one bin width of it.", "quantifier": "all multisets of values, ranks", "why_tests_cant": "all multisets", "anchors": ["src/binner.rs", "src/objective.rs quantile!", "src/dataset.rs update_num update_hicard_cat"]}
{"id": "C35", "title": "Feature limits, cardinalities and kinds", "statement": "The limits recorded for a feature are the smallest and largest value of its column; a categorical feature's cardinality is largest value plus one; loading rejects negative or fractional category values.", "quantifier": "all column contents", "why_tests_cant": "all data", "anchors": ["src/data.rs Data::from_csv check_categorical_value feat_limits max_nbins"]}
{"id": "C36", "title": "Feature data supplied through the C API", "statement": "Feature data set through the C API obtains the same limits and cardinality as the same data loaded from CSV, and replacing it forgets the previous data.", "quantifier": "all columns, all call sequences", "why_tests_cant": "histories", "anchors": ["src/data.rs Data::empty set_feature_data", "src/c_api.rs bb_set_feature_data"]}
{"id": "C37", "title": "Configuration strings", "statement": "Parsing a configuration sets exactly the named fields to the given values, later assignments win, unknown names and malformed values are reported and leave the configuration unmodified for that entry; whatever is printed parses back.", "quantifier": "all strings", "why_tests_cant": "all strings", "anchors": ["src/config.rs Config::parse set_field"]}
{"id": "C38", "title": "C API state machine", "statement": "Whatever sequence of C API calls is made, errors are reported through return codes, predicting before training is refused, and a failed call leaves the trained model and configuration usable.", "quantifier": "all call sequences", "why_tests_cant": "histories", "anchors": ["src/c_api.rs"]}
{"id": "C39", "title": "Metrics", "statement": "Each metric is the weighted average its name says, bounded as expected (error rates within 0..1), and independent of the order of the examples in exact arithmetic.", "quantifier": "all target/prediction vectors", "why_tests_cant": "all vectors", "anchors": ["src/metric.rs"]}
{"id": "C40", "title": "Objectives: gradients and leaf values", "statement": "Each objective's gradient is the derivative of its loss up to the code's sign convention, stays within the bounds used for discretisation, and leaf values minimise the loss model used.", "quantifier": "all targets and predictions", "why_tests_cant": "real-valued inputs", "anchors": ["src/objective.rs"]}
{"id": "C41", "title": "Hi-cardinality category statistics use each example's own gradient", "statement": "The gradient statistics used to group the categories of a hi-cardinality feature associate every active example's category with that example's gradient, with and without subsampling.", "quantifier": "all samples and gradients", "why_tests_cant": "all samples", "anchors": ["src/dataset.rs update_hicard_cat"]}
{"id": "C42", "title": "Ensemble prediction is additive", "statement": "An additive model's prediction is bias plus the sum of its trees' predictions in training order; pushing a tree changes each prediction by exactly that tree's output. A tree's prediction, after any history of splits, value, shrinkage and bias assignments, is the product of all its shrinkage factors times the last value of the leaf the example reaches plus the last bias.", "quantifier": "all models, all inputs", "why_tests_cant": "all models", "anchors": ["src/tree/tree.rs AdditiveTree predict push_tree", "src/tree/tree.rs Tree predict_single set_shrinkage set_bias set_value split_node"]}
{"id": "C43", "title": "Depth and size bounds of growth", "statement": "Tree growing always terminates; the tree has at most 2^d leaves for max depth d, no node deeper than max_depth, and all node histograms and masks allocated are released.", "quantifier": "all data and parameters", "why_tests_cant": "all runs", "anchors": ["src/tree/learner.rs train get_left_right_n2s"]}
{"id": "C44", "title": "Constant targets are handled", "statement": "Training on a constant target terminates with that constant as prediction.", "quantifier": "all objectives and constants", "why_tests_cant": "special inputs", "anchors": ["src/objective.rs L1 Huber", "src/binner.rs Binner::new"]}
{"id": "C45", "title": "Simultaneous mutable slices never alias", "statement": "Obtaining two mutable slices of one store succeeds exactly when both are in range and they do not overlap, and then writes through one are invisible through the other.", "quantifier": "all ranges", "why_tests_cant": "all ranges", "anchors": ["src/slice_store.rs get_two_slices_mut"]}
{"id": "C46", "title": "Binary features keep their information", "statement": "Dropping all but one bin for binary categorical features and all bins for constant ones removes no split: every partition available with all bins is available with the remaining ones.", "quantifier": "all binary and constant columns", "why_tests_cant": "all data", "anchors": ["src/data.rs max_nbins", "src/dataset.rs update_locard_cat"]}
{"id": "C47", "title": "Bin masks describe the examples", "statement": "After any history of updates of which at least one ran, every bin of every active feature has a mask whose bit i is set exactly when the i-th active example belongs to that bin (equals the category; super-category at most the bin; value bin at most the candidate's), and every bit past the active examples is clear.", "quantifier": "all data, configurations, random draws and update histories", "why_tests_cant": "the masks are reused and updated in place across samples of different composition; a stale bit shows only for particular histories", "anchors": ["src/dataset.rs update_locard_cat, update_hicard_cat, update_num, fill_bitvecs, accumulate_bitvecs"]}
{"id": "C48", "title": "Reported metrics belong to the running predictions", "statement": "During boosting, a metric value is reported exactly after the iterations whose number is a multiple of metric_frequency, and it is the metric applied to the training targets and the running predictions at that moment; the running predictions are the ones the ensemble built so far would give.", "quantifier": "all data, configurations, objectives, metrics and numbers of iterations", "why_tests_cant": "needs agreement at every reporting point of every run", "anchors": ["src/boost.rs Booster::train, Booster::evaluate, Booster::metrics_to_string"]}
{"id": "C49", "title": "Training succeeds on valid input", "statement": "Given well-formed data (known column types and limits, categories below the cardinality, at least one usable feature) and a configuration with positive leaf size, bin counts and fractions in (0,1], training completes without panicking, reading out of bounds or looping and returns the requested number of trees.", "quantifier": "all well-formed data, configurations, objectives, random draws and job orders, in exact arithmetic and in f32", "why_tests_cant": "there are dozens of asserts and unchecked reads on the way and no test can exclude an input that reaches one", "anchors": ["src/boost.rs Booster::train", "src/dataset.rs Dataset::new, Dataset::update", "src/tree/learner.rs TreeLearner::train"]}
{"id": "C50", "title": "Memory safety for callers that follow the rules", "statement": "A program that passes only the null pointer or addresses of contexts it has allocated and not yet freed, buffers with at least as many values as the context has rows, and fewer than 2^31 rows, never triggers undefined behaviour (no unchecked read or write leaves its array, in training or prediction) and no call runs forever: every call returns a reply, for every configuration (also nonsensical ones), all data, random draws and thread orders, and after any earlier failures.", "quantifier": "all programs (sequences of calls) that follow the rules, all settings, data, random draws and schedules", "why_tests_cant": "the code reads with get_unchecked and raw pointers on the way; whether an index is in bounds depends on the data, the sample, the tree shape and the compression so far", "anchors": ["src/c_api.rs", "src/tree/learner.rs TreeLearner::train", "src/bits.rs get_unchecked uses", "src/dataset.rs", "src/tree/tree.rs predict"]}
{"id": "C51", "title": "A trained model predicts any new table, row by row", "statement": "A trained model predicts every table that has at least the training features as columns, of any length and with any values (unseen categories, infinities, NaN): the prediction of a row is the bias plus the values of the leaves the row reaches, one per tree, and depends on nothing but that row's values in the feature columns (not on other rows, further columns, or the column kinds, limits and cardinalities the table was loaded with).", "quantifier": "all training data, configurations, objectives, random draws, schedules and all tables to predict", "why_tests_cant": "all trained trees and all unseen inputs; the assertions and table lookups on the way depend on both", "anchors": ["src/tree/tree.rs AdditiveTree::predict, Tree::predict_leaf_id_of_example", "src/boost.rs Booster::train"]}
{"id": "C52", "title": "The Python wrapper and estimator: safe programs, predictions as a function of the row", "statement": "A Python program that gives matrices with at least one row and separate columns (such as targets) at least as long as the last matrix never causes undefined behaviour: uses of freed objects raise, a second deletion does nothing, and wrong types or widths, invalid settings or categories, failed trainings and predictions before training are harmless. At every point each object has one prediction function: until the object is trained again or freed, predict of any matrix of the right type and width returns that function of each row, in order, whatever else happened in between. After fit with valid settings and categories that function is the model trained on the matrix and targets given (with the kinds asked for), or constantly zero if the training failed.", "quantifier": "all programs over any number of objects, all matrices, settings, random draws and schedules", "why_tests_cant": "all interleavings of operations, failures and objects, and all data", "anchors": ["python/bitboost/bitboost.py RawBitBoost", "python/bitboost/sklearn.py BitBoost.fit, predict", "src/c_api.rs"]}
{"id": "C53", "title": "The bins of a feature are quantiles of the active examples", "statement": "Every update that is due chooses the bins of an active numerical feature at quantiles: the active examples are put into equal-width histogram bins between the feature's limits, each weighing the absolute value of its own gradient plus a tiny constant, and the split values are the upper edges, in increasing order and without repetition, of exactly the histogram bins that contain i/(max_nbins+1) of the total weight for i = 1..max_nbins. For a feature with many categories (without example sampling) the categories that occur are put into equal-width bins between the gradient bounds at their mean gradient, each weighing its number of examples; the groups are separated by the upper edges of the bins that contain the corresponding ranks, and a category belongs to the group of its mean gradient.", "quantifier": "all data, gradients, histories of updates, random numbers, settings", "why_tests_cant": "real-valued data and weights, histories", "anchors": ["src/dataset.rs update_num update_hicard_cat update", "src/binner.rs RankIter insert"]}
{"id": "C54", "title": "The command line tool: errors, reports, no leak from the test file", "statement": "bitboost-run returns an error exactly for a request that cannot be served (unknown command, an argument that is not an assignment of a valid value to a field, an unknown objective or metric, a file that cannot be read or holds something else than numbers or categories), before anything is trained. Otherwise it trains on the columns of the training file with the requested settings and reports the metrics (or the predictions) of that model on both files, each against its own last column. 'tree' trains the tree of one boosting round and predicts the same numbers. What is reported about the training file does not depend on the test file or on whether there is one; if both files are the same the test values are the training values; equal rows get equal predictions in either file. No request has undefined behaviour or runs forever.", "quantifier": "all arguments, file systems, settings, random numbers, thread schedules, both build modes", "why_tests_cant": "all argument lists and file contents", "anchors": ["src/bin/run.rs main parse load_data single_tree boost summary", "src/data.rs from_csv_path from_csv_reader"]}
{"id": "C55", "title": "Shared node memory is transparent", "statement": "Nodes of a growing tree keep their histograms, example masks, index lists and gradients in slices of four shared stores that are reused within a tree and from one tree to the next.  The learned tree, the calls made on the objective, and whether training panics are the same as if every node had memory of its own, for every history of the stores.", "quantifier": "all data sets, configurations, gradients, objectives, job orders, build modes and previous uses of the context, as long as the slices of one tree fit the stores' 32-bit addresses", "why_tests_cant": "stale contents, aliasing and reuse depend on the whole history of allocations", "anchors": ["src/tree/learner.rs TreeLearnerContext Node2Split TreeLearner", "src/slice_store.rs", "src/boost.rs train"]}
{"id": "C56", "title": "Boosting with L2 never fits worse", "statement": "With the L2 objective, exact arithmetic and a learning rate between 0 and 2, one more boosting iteration never increases the sum of squared errors of the model over the examples the new tree was trained on. Without example sampling the training error over the whole training set never increases with the number of iterations, and is never above that of any constant prediction.", "quantifier": "all well-formed data, settings with learning rate in [0,2] and min_examples_leaf >= 1, random numbers, thread schedules, numbers of iterations, both build modes", "why_tests_cant": "all data sets, tree shapes, schedules and iteration counts", "anchors": ["src/boost.rs Booster::train train_one_iter", "src/objective.rs L2", "src/tree/learner.rs", "src/tree/tree.rs AdditiveTree"]}
{"id": "C57", "title": "The trained tree is the greedy tree", "statement": "Training one tree starts from all active examples and, while a level is left below max_tree_depth, splits a group of examples on the bin of an active feature with the largest gain among those that leave at least min_examples_leaf examples on both sides, provided that gain exceeds min_gain; the examples in the bin's mask go left, the others right. A group is left whole exactly when no level is left or no such bin has a gain above min_gain. Every leaf holds the objective's value for exactly the examples that arrive there.", "quantifier": "all data sets, active features and examples, gradients, settings, objectives, job orders, build modes", "why_tests_cant": "all data sets and settings; greediness is a claim about every node and every bin not chosen", "anchors": ["src/tree/learner.rs TreeLearner::train find_best_split", "src/tree/tree.rs Tree::split_node"]}
{"id": "C58", "title": "Debug and release builds agree on sound data", "statement": "On data whose categorical columns hold non-negative whole numbers below their cardinality (which loading guarantees) and with at least (max_nbins+1)/2 active examples, no debug assertion or overflow check of a debug build fires while the data set is created and updated, bins are summed, quantiles are estimated and rows are predicted, and the results are those of a release build. A model trained by a debug build is the model a release build trains.", "quantifier": "all sound data sets, settings, gradients, histories of updates, nodes, candidate splits, trained models and new tables; in f32 for (active examples + 257) * (max_nbins + 1) <= 2^23 and gradients up to 2^100", "why_tests_cant": "tests run a few inputs in one of the two builds; that an assertion never fires is a claim about all inputs, including every rounding of the weight sums it compares", "anchors": ["src/lib.rs into_cat", "src/dataset.rs DatasetInner::update_locard_cat update_hicard_cat update_num fill_bitvecs", "src/binner.rs RankIter::next", "src/simd.rs btslce_summ1_uc .. btslce_summ8_c or_assign", "src/tree/tree.rs Tree::predict_leaf_id_of_example"]}
{"id": "C59", "title": "The order of the rows does not matter", "statement": "With exact arithmetic and without example sampling (example_fraction = 1), training on the same table with its rows in another order, the same settings and the same random draws gives the same model; the running prediction of each example and the reported metrics are the same. In f32 this holds for the absolute error without high-cardinality features; for the squared error the f32 result can depend on the order of the rows.", "quantifier": "all data sets, all permutations of the rows, the five objectives, all settings with example_fraction = 1, all numbers of iterations, all orders of the histogram jobs and both build modes", "why_tests_cant": "a test compares a few permutations of a few tables; bins, quantiles, bitmaps, compression and sums are all laid out by row position, so independence is a claim about every permutation through every step of training", "anchors": ["src/dataset.rs Dataset::update DatasetInner::update_locard_cat update_hicard_cat update_num fill_bitvecs accumulate_bitvecs", "src/binner.rs Binner::insert RankIter::next", "src/objective.rs initialize update predict_leaf_value", "src/tree/learner.rs TreeLearner::train", "src/boost.rs Booster::train"]}
{"id": "C60", "title": "More iterations extend the model; reporting does not change it", "statement": "If training for n iterations succeeds, then training on the same data with the same random draws for k <= n iterations succeeds and gives the model with the same bias and the first k trees. The metrics, how often they are reported, the file names, the file format settings and the name fields of the configuration have no influence on the model, the running predictions or the random draws.", "quantifier": "all data sets, objectives, settings, numbers of iterations, metrics, job orders and random draws; every arithmetic (exact and f32)", "why_tests_cant": "A test compares a few pairs of runs; the claim ranges over all pairs of settings that differ only in fields that do not take part in learning, and over all data sets and histories.", "anchors": ["src/boost.rs Booster::train train_one_iter", "src/config.rs Config", "src/metric.rs Metric", "src/dataset.rs Dataset::update"]}
{"id": "C61", "title": "Only informative columns matter", "statement": "A feature column that carries no information (its smallest and largest value are equal, or it has no bin) has no influence: two tables of the same shape that agree on the target and on the informative columns are trained to the same model, with the same running predictions and metrics. A trained model splits on informative features only, so the prediction of a row depends only on its values in those columns.", "quantifier": "all pairs of tables, objectives, settings, sampling histories, job orders and random draws; every arithmetic (exact and f32); all tables that are predicted", "why_tests_cant": "A test replaces one column in one table; the claim ranges over all contents of the uninformative columns, all settings and all sampling histories, where a wrong index or a leftover of an unused column would show only for some of them.", "anchors": ["src/dataset.rs DatasetInner::new update active_features", "src/tree/learner.rs find_best_split predict_out_of_bag", "src/boost.rs Booster::train", "src/tree/tree.rs predict_leaf_id_of_example"]}
{"id": "C62", "title": "A constant added to the targets is added to the predictions", "statement": "In exact arithmetic, for the squared, absolute and Huber error: if training on a table succeeds, then training on the same table with a constant c added to every target succeeds and gives the same trees with c added to the bias. The running predictions and the predictions of every other table are those of the first model plus c; gradients, and the values of the regression metrics, are the same.", "quantifier": "all tables with at least one example, all constants, the three regression objectives, all settings, sampling histories, job orders and random draws; all predicted tables", "why_tests_cant": "A test shifts a few targets and compares up to rounding; the claim ranges over all data, constants and settings and includes the split choices, which a test sees only through examples where no tie is near.", "anchors": ["src/objective.rs L2 L1 Huber", "src/binner.rs Binner", "src/tree/learner.rs TreeLearner::train", "src/boost.rs Booster::train", "src/tree/tree.rs AdditiveTree::predict", "src/metric.rs"]}
{"id": "C63", "title": "The units of numerical features do not matter", "statement": "In exact arithmetic, for every objective: if training on a table succeeds, then training on the table with its numerical features measured in other units (x replaced by p*x+q with p>0, per column, limits included) succeeds and gives the same bias and trees of the same shape, features and leaf values, with each threshold of a numerical split converted to the new unit. Running predictions, gradients and reported metrics are the same after every number of iterations, and rows measured in the new units get the predictions they got before.", "quantifier": "all tables, all conversions of all numerical columns, the five objectives, all settings, sampling histories, job orders and random draws; all predicted tables", "why_tests_cant": "A test converts a few columns and compares up to rounding; the claim ranges over all data and conversions and includes the choice of split candidates and of splits, which change discontinuously.", "anchors": ["src/dataset.rs update_num", "src/binner.rs Binner", "src/tree/learner.rs TreeLearner::train", "src/tree/tree.rs Tree::predict_single", "src/boost.rs Booster::train"]}
{"id": "C64", "title": "The unit of the target does not matter for the absolute error", "statement": "In exact arithmetic, with the absolute error: if training on a table succeeds, then training with the target measured in another unit (y replaced by a*y+c with a>0), and possibly the numerical features too, succeeds and gives the same trees with all leaf values multiplied by a (thresholds converted), and the bias converted; running predictions and the predictions of every table are the converted ones, gradients are the same.", "quantifier": "all tables, conversions, settings, sampling histories, job orders and random draws; all predicted tables", "why_tests_cant": "As for C63: the claim ranges over all data and conversions and includes every split choice.", "anchors": ["src/objective.rs L1", "src/binner.rs Binner", "src/tree/learner.rs TreeLearner::train", "src/boost.rs Booster::train"]}
{"id": "C65", "title": "Samples are uniform and independent", "statement": "If the random number generator is uniform, then for every update that samples, every selection of as many useful features and examples as the fractions ask for is equally likely, whatever was selected before: of the equally likely sequences of draws of a whole history of updates, every sequence of selections comes from exactly the same number.", "quantifier": "all data and settings training accepts, all histories of updates with usable gradients, all sequences of selections", "why_tests_cant": "A test can only compare frequencies on a few data sets; the claim counts all sequences of draws, for all sizes, and includes the independence of later samples from earlier ones although the buffer stays permuted.", "anchors": ["src/dataset.rs shuffle_first_k", "src/dataset.rs Dataset::update", "src/dataset.rs Dataset::sample_examples", "src/dataset.rs DatasetInner::sample_features"]}
{"id": "C66", "title": "Training is gradient boosting with the stated loss", "statement": "In exact arithmetic, with min_examples_leaf 1: after k iterations the model has k trees, and each tree is the one gradient boosting prescribes given the trees before it. With the squared error training starts from the mean of the targets; tree i is grown greedily, to the depth limit, for the gradients prediction - target of the active examples, where the predictions are those the model made of the bias and the first i trees gives for the training table, discretised between -B and B for the smaller magnitude B of the least and the largest residual (B > 0); a node is split on the candidate of the largest gain, exactly if that exceeds min_gain; each leaf is reached by some examples and adds the learning rate times their mean residual. With the absolute error the gradients are -1 and 1 and a leaf adds the learning rate times a best constant up to 1/1024 of the range of the residuals; with the binary objective the gradients are the derivatives of the logistic loss, clipped at binary_gradient_bound, and a leaf adds the learning rate times a Newton step (second derivative plus 2^-23). With the Huber objective delta is the magnitude of the huber_alpha-quantile of the residuals (up to 1/1024 of their range), the gradients are the residuals limited to [-delta, delta], and a leaf adds the learning rate times m plus the mean of the residuals from m, each limited to [-delta, delta], for a median m of the residuals there (up to 1/1024 of their range). With the hinge objective training starts from the mean of the labels -1 and 1, the gradients are the derivatives of the hinge loss, between -1 and 2, and a leaf adds the learning rate times the mean of label * max(0, 2 - label * prediction)^2. Training starts from the best constant for L2 and Binary, and from one within 1/1024 of the range of the targets with L1 and Huber.", "quantifier": "all tables, settings, numbers of iterations, sampling histories, job orders and random draws; all trees of the model", "why_tests_cant": "A test can compare a few models with a reference implementation; the claim relates every tree of every training run to the predictions of the earlier trees and to all split candidates.", "anchors": ["src/boost.rs Booster::train", "src/objective.rs L2", "src/objective.rs L1", "src/objective.rs Binary", "src/tree/learner.rs TreeLearner::train", "src/tree/tree.rs AdditiveTree::predict"]}
{"id": "C67", "title": "Robust boosting does not fit worse beyond its precision", "statement": "In exact arithmetic, with a learning rate between 0 and 1: one more iteration with the absolute error raises the sum of the absolute errors over the examples its tree was trained on by at most the learning rate times r/1024 per example, where r is the range of the residuals before; without example sampling this adds up over any number of iterations. With the Huber objective the sum of the Huber losses for that iteration's delta rises by at most the learning rate times delta^2/2 + delta*r/1024 per example.", "quantifier": "all tables, settings (any min_examples_leaf of at least 1, any sampling), numbers of iterations, job orders and random draws", "why_tests_cant": "A test sees a few training curves; the claim bounds the loss after every iteration of every training run, whatever tree the quantised gradients led to.", "anchors": ["src/boost.rs Booster::train", "src/objective.rs L1", "src/objective.rs Huber", "src/binner.rs Binner::bin_with_rank", "src/tree/learner.rs TreeLearner::train"]}
{"id": "C68", "title": "The unit of the target does not matter for the squared error and the Huber loss on categorical tables", "statement": "In exact arithmetic, on a table whose features are all categorical, with the squared error or the Huber objective: if the target is measured as a*y+c (a > 0) instead of y and the smallest gain is given in the squared unit (times a^2), training succeeds exactly as before, with the same trees whose leaf values are multiplied by a and the start value converted; the running predictions and the predictions of the model for any rows are the converted ones.", "quantifier": "all categorical tables, all a > 0 and c, all settings, numbers of iterations, job orders, metrics and random draws, debug and release builds", "why_tests_cant": "A test compares two runs in two units; the claim covers every table, every unit and offset and every setting.", "anchors": ["src/boost.rs Booster::train", "src/objective.rs L2", "src/objective.rs Huber", "src/tree/learner.rs TreeLearner", "src/dataset.rs Dataset::update", "src/data.rs Data::get_target"]}
{"id": "C69", "title": "A smaller depth or a larger smallest gain only cuts the tree", "statement": "If two trees are learned from the same data, gradients and random draws, and the second time max_tree_depth is smaller or the same and min_gain is larger or the same (all other settings equal), then the second tree is the first one with some nodes turned into leaves: every split of it is the split of the first tree at the same place, it has at most as many leaves, and a row ends in the leaf at or above the leaf it has in the first tree. If only the depth differs, the splits on the remaining levels are the same. In particular this holds for the first trees of two models, which start from the same constant.", "quantifier": "all tables, gradients, objectives, settings, job orders and random draws; single precision and exact arithmetic, debug and release builds", "why_tests_cant": "A test compares two trees on one table; the claim relates the trees for every table and every pair of such settings, including ties, NaN gains and compressed nodes.", "anchors": ["src/tree/learner.rs TreeLearner::train", "src/tree/learner.rs find_best_split", "src/tree/tree.rs Tree::predict_leaf_id_of_example", "src/boost.rs Booster::train", "src/config.rs max_tree_depth, min_gain"]}
{"id": "C70", "title": "The order of the columns does not matter, except for ties", "statement": "If the feature columns of the training table are put in another order (with their kinds, limits and cardinalities) and no two different features ever tie for a gain above min_gain while the trees are grown, then training on the reordered table succeeds too and gives the same model with the features renamed: the same constant, the same splits on the same (renamed) columns, the same leaf values, the same running predictions and the same reported metrics; for any new rows whose columns are reordered the same way the predictions are identical. With a tie the claim is false: the first tied column is used.", "quantifier": "all tables and column orders, objectives, metrics, job orders and random draws (example sampling included), without feature sampling; single precision and exact arithmetic, debug and release builds", "why_tests_cant": "A test permutes the columns of one table; the claim is about every table and permutation, with every schedule of the jobs, and about all rows predicted later.", "anchors": ["src/tree/learner.rs TreeLearner::train", "src/tree/learner.rs find_best_split", "src/dataset.rs Dataset::new", "src/dataset.rs Dataset::update", "src/boost.rs Booster::train", "src/tree/tree.rs AdditiveTree::predict"]}
{"id": "C71", "title": "Extra constant columns change nothing", "statement": "If columns that hold one value in all training rows are added to the training table, anywhere among the features, then training still succeeds and gives the same model with the features renumbered: the same constant, splits, leaf values, running predictions and reported metrics, and the same predictions for new rows, whatever values those rows have in the added columns.", "quantifier": "all tables, numbers and places of added columns, settings (feature and example sampling included), objectives, metrics, job orders and random draws; any arithmetic, debug and release builds", "why_tests_cant": "A test adds a column to one table; the claim is about every table, sampling history and schedule, and about all rows predicted later.", "anchors": ["src/dataset.rs Dataset::new", "src/dataset.rs Dataset::update", "src/tree/learner.rs TreeLearner::train", "src/boost.rs Booster::train", "src/tree/tree.rs AdditiveTree::predict", "src/data.rs Data::from_csv_path"]}
{"id": "C72", "title": "Copies of columns change nothing", "statement": "If copies of some features are added to the training table, anywhere after their originals, then training without feature sampling still succeeds and gives the same model with the features renumbered: the same constant, splits (never on a copy), leaf values, running predictions and reported metrics, and the same predictions for new rows, whatever values those rows have in the copies.", "quantifier": "all tables, numbers and places of copies, settings with feature_fraction keeping all features (example sampling included), objectives, metrics, job orders and random draws; f32 and exact arithmetic, debug and release builds", "why_tests_cant": "A test duplicates one column of one table; the claim is about every table, split search, training history and schedule, and about all rows predicted later.", "anchors": ["src/dataset.rs Dataset::new", "src/dataset.rs Dataset::update", "src/tree/learner.rs TreeLearner::find_best_split", "src/tree/learner.rs TreeLearner::train", "src/boost.rs Booster::train", "src/tree/tree.rs AdditiveTree::predict", "src/data.rs Data::from_csv_path"]}
{"id": "C73", "title": "Unused category codes change nothing", "statement": "If the codes of a low-cardinality categorical column (at least three codes) are renumbered in the same order, so that some codes in between occur in no row, then training (min_examples_leaf at least one) still succeeds and gives the same model with the codes in the splits renumbered: the same constant, split features, leaf values, running predictions and reported metrics; no split is on an unused code, and the predictions for renumbered rows are the same, also for rows with categories not seen in training.", "quantifier": "all tables, strictly increasing renumberings of any of the columns, settings with min_examples_leaf >= 1 (feature and example sampling included), objectives, metrics, job orders and random draws; f32 and exact arithmetic, debug and release builds", "why_tests_cant": "A test renumbers one column of one table; the claim is about every table, renumbering, training history and schedule, and about all rows predicted later.", "anchors": ["src/dataset.rs Dataset::new", "src/dataset.rs Dataset::update", "src/slice_store.rs", "src/tree/learner.rs TreeLearner::find_best_split", "src/tree/learner.rs TreeLearner::train", "src/boost.rs Booster::train", "src/tree/tree.rs AdditiveTree::predict", "src/data.rs Data::from_csv_path"]}
{"id": "C74", "title": "The other samplers are fair", "statement": "reservoir_sample(rng, n, buffer) leaves buffer.len() different numbers below n in the buffer, in increasing order, whatever the generator gives; of the equally likely sequences of draws the same number gives every such selection (debug builds panic unless n is larger than the buffer). sample_replacement(rng, n, buffer) leaves the drawn numbers in order, each drawn independently below n. (Nothing in the crate calls the two.)", "quantifier": "all n, buffers and generators; debug and release builds", "why_tests_cant": "Fairness counts all sequences of draws; a test sees a few seeds.", "anchors": ["src/dataset.rs reservoir_sample", "src/dataset.rs sample_replacement"]}
{"id": "C75", "title": "sample_freq = 0 turns learning off", "statement": "With sample_freq = 0 no tree of a training splits on a numerical or high-cardinality feature, and if example_fraction is below one no tree splits at all: the model predicts one number for every row of every table. (The option reads like 'never resample'; the first update, which sets the features up, is skipped too.)", "quantifier": "all tables, settings, objectives, metrics, iterations, random draws and job orders, debug and release, any arithmetic", "why_tests_cant": "It is about every tree of every training with that setting; a test sees one.", "anchors": ["src/dataset.rs update", "src/dataset.rs new", "src/tree/learner.rs train"]}
{"id": "C76", "title": "What training cannot do without", "statement": "A training of at least one iteration only succeeds if: gradients have 1, 2, 4 or 8 bits; trees have at least one level; the fraction of the examples is at least one example and no more than there are; the fraction of the informative features is not more than all of them; and some feature is numerical or has at least two categories. Otherwise it panics (it reports no error, and it has no undefined behaviour).", "quantifier": "all tables with at most 2^31 target values, settings with at least one iteration, objectives, metrics, random draws and job orders, debug and release, any arithmetic", "why_tests_cant": "The combinations of settings and tables that panic are infinitely many, and a test shows only that one of them does.", "anchors": ["src/tree/learner.rs get_root_n2s", "src/slice_store.rs alloc_slice", "src/dataset.rs active_features", "src/tree/tree.rs new"]}
{"id": "C77", "title": "Predictions of the error losses are bounded", "statement": "With the objectives L2, L1 and Huber, one iteration and a learning rate between 0 and 1, no prediction for any row of any table is below the least or above the largest training target. After k iterations no prediction is farther from the bias of the model (which is within the range of the targets) than ((1 + learning_rate)^k - 1) A when no target is farther than A; and for L2, when every tree is trained on all examples and the learning rate is at most 2, no farther than k * learning_rate * sqrt(sum of squared deviations of the targets from their mean).", "quantifier": "all well-formed tables, settings, metrics, random draws and job orders, numbers of iterations, prediction tables and rows; exact arithmetic", "why_tests_cant": "It bounds the output for every row anyone may ever ask about, for every trained model; a test sees a few rows of one model.", "anchors": ["src/objective.rs L2 L1 Huber", "src/tree/tree.rs predict", "src/boosting.rs train", "src/tree/learner.rs train"]}
{"id": "C78", "title": "A tree has no more leaves than examples allow", "statement": "Every tree of a model has one leaf, or at most n / min_examples_leaf leaves, where n is the number of examples a tree is trained on (the example fraction of the table). So if n is below twice min_examples_leaf no tree has a split and the model predicts one number, the same for every row of every table.", "quantifier": "all data, settings, objectives, metrics, random numbers, job orders, numbers of iterations, prediction tables; any arithmetic", "why_tests_cant": "It is about every tree that can be grown from any data in any rounding; a test sees some trees.", "anchors": ["src/tree/learner.rs find_best_split", "src/tree/learner.rs train", "src/boosting.rs train"]}
{"id": "C79", "title": "Settings that are not finite numbers turn learning off or panic", "statement": "With a min_gain that is NaN or infinite, or a reg_lambda that is NaN, no tree of any model has a split and the model predicts one number for every row of every table; no error is reported. With a learning rate that is NaN or infinite every training of at least one iteration panics.", "quantifier": "all data, other settings, objectives, metrics, random numbers, job orders, numbers of iterations and prediction tables; 32-bit floats as computed", "why_tests_cant": "It is about every training under such a setting; a test tries a few tables.", "anchors": ["src/config.rs", "src/tree/learner.rs find_best_split", "src/tree/tree.rs set_node_value", "src/objective.rs"]}
{"id": "C80", "title": "A tree splits on features of one sample of the informative features", "statement": "For every tree of a model there is one set of informative columns (at least one bin, and more than one value), as many as the feature fraction of all of them, that has every column the tree splits on. So no tree splits on the target, on a constant column, or on more columns than the fraction allows.", "quantifier": "all data, settings, objectives, metrics, random numbers, job orders, numbers of iterations, trees; any arithmetic", "why_tests_cant": "It is about every tree that any random numbers and any data give; a test sees some trees.", "anchors": ["src/dataset.rs", "src/tree/learner.rs find_best_split", "src/boosting.rs train"]}
{"id": "C81", "title": "In the first iteration the learning rate only scales the leaves", "statement": "Train one iteration twice from the same random numbers, with settings that differ in learning_rate only. Both models have the same bias and one tree with the same splits at the same nodes, so every row of every table reaches the same leaf; the values of a leaf are the one and the other learning rate times the same number. Without rounding, the distance of a prediction from the bias is in proportion to the learning rate.", "quantifier": "all data, settings, objectives, metrics, random numbers, job orders, pairs of learning rates for which both trainings succeed; any arithmetic (proportionality of the predictions: real numbers)", "why_tests_cant": "It relates two runs over all data, settings, random numbers and orders of the threads; a test sees some pairs of runs.", "anchors": ["src/objective.rs initialize_base, update_predictions", "src/tree/learner.rs train", "src/boost.rs Booster::train_one_iter"]}
{"id": "C82", "title": "With a learning rate of zero the model predicts its bias", "statement": "If learning_rate is 0 (or -0), every model that training returns predicts its bias for every row of every table, however many trees it has and whatever they split on; in 32-bit floating point a bias that is a zero may come out as the other zero. No infinite or undefined leaf value slips through.", "quantifier": "all data, other settings, objectives, metrics, random numbers, job orders, numbers of iterations, tables to predict; real numbers and 32-bit floats", "why_tests_cant": "It is about all models of such settings and all tables; in floats 0 times an infinite or undefined leaf value must be excluded for every data set.", "anchors": ["src/objective.rs update_predictions", "src/tree/tree.rs set_node_value, predict_single", "src/boost.rs Booster::train_one_iter"]}
