{
 "C03": [
  "partial",
  "enable_bit and set_bit proved, and every history of them (C03_history); the disable_bit half is false of the code (bitset.rs:48-52 enables the bit): C03_disable_bit_refuted proves the bit is present after every disable_bit."
 ],
 "C30": [
  "proved",
  "Range, storing, monotonicity and saturation in f32 for every input (NaN, infinities); half-step error in exact arithmetic (C30_half_step_error) and in f32 with a rounding-error bound (C30_half_step_f32)."
 ],
 "C31": [
  "proved",
  "Exact arithmetic (Rops instance of the same model code); C31_sum_f32: f32 with a rounding-error bound."
 ],
 "C32": [
  "proved",
  "f32, all values including NaN/infinities, up to 2^24 bins.  Sending large values to the last bin needs a bin width that neither overflows nor is subnormal; C32_overflowing_limits_refuted shows the proviso is necessary."
 ],
 "C33": [
  "proved",
  "Generic in the weight type; instantiated to the u32 and f32 uses."
 ],
 "C34": [
  "proved",
  "C34_quantile: f32, the reported value is the upper edge (lower edge of the last bin) of the bin holding the r-th smallest value; C34_within_one_bin: exact arithmetic."
 ],
 "C21": [
  "partial",
  "C21_counts, C21_split, C21_ninternal proved for every build history; the node-id check of the API is wrong and C21_is_valid_node_id_refuted proves it."
 ],
 "C36": [
  "partial",
  "A fresh column gets the same values, cardinality and kind as the CSV path (C36_fresh) and errors are reported (C36_error); the limits differ from the CSV path (C36_limits_refuted) and replacing data keeps old limits, cardinality and kind (C36_replace_refuted)."
 ],
 "C24": [
  "partial",
  "Categorical features: proved in f32 (C24_categorical).  Numerical features: proved in exact arithmetic when the split leaves an example on the right (C24_numerical); in f32 the property is false for NaN values and for values on a bin boundary up to rounding (C24_nan_refuted, C24_rounding_refuted, both from a loaded csv file)."
 ],
 "C27": [
  "partial",
  "All clauses proved; the sample size round(fraction*n) is exact only up to 2^24 examples (C27_sample_size, and C27_sample_size_large_refuted beyond)."
 ],
 "C41": [
  "partial",
  "Proved without example sampling: the sums and counts (C41_unsampled) and the groups made from them after any history (C41_groups: group of the mean gradient; C41_ordered).  False with sampling (C41_sampled_refuted: gradients are looked up with the local index)."
 ],
 "C15": [
  "proved",
  "Every node that occurs while growing a tree (root, children of splits), any arithmetic; C15_total: splitting does not fail if min_examples_leaf >= 1.  Up to 2^31 active examples."
 ],
 "C16": [
  "proved",
  "Compressed or not, a node stores exactly the gradients of its examples; children, trees and all calls on the objective are the same for every compression threshold.  C16_model: whole models, in any arithmetic."
 ],
 "C17": [
  "proved",
  "Every order of the jobs (C17_order), every interleaving of threads that compute a bin and later write it under the lock (C17_threads), and the whole tree (C17_tree).  C17_model: whole models, all iterations; C17_release: a run that succeeds in a debug build has the same outcome in a release build."
 ],
 "C18": [
  "proved",
  "Built histograms (root and left children): exact count and projected gradient sum of the node's examples in each bin's mask, any arithmetic; counts are exact at every node.  C18_f32: in single precision (min_examples_leaf <= 1), bins and gradient sums of every node against the sum of the true clamped gradients, with an explicit error bound."
 ],
 "C19": [
  "partial",
  "Exact arithmetic and min_examples_leaf <= 1 (C19_exact; counts for all: C18_counts); f32 with an explicit rounding-error bound that grows with the depth (C19_f32).  For min_examples_leaf >= 2 the property is false of the code: C19_min_examples_refuted."
 ],
 "C20": [
  "proved",
  "f32: with respect to the node's histograms (C20_best, NaN gains are never chosen) and, with an explicit bound for the rounding errors, with respect to the exact gains (C20_f32); exact arithmetic: with respect to the examples' gradients (C20_exact)."
 ],
 "C26": [
  "proved",
  "Any arithmetic for the partition into leaves and the calls on the objective; agreement with the leaf prediction finds: categorical features in f32, all features in exact arithmetic (C24 for the reason)."
 ],
 "C43": [
  "proved",
  "C43_release: for a tree learned with any context a program can have (C55's store-level model), while the slices fit 32-bit addresses (`room`).  C43_min_examples_zero_refuted: with min_examples_leaf 0 training can panic (C43_total says when it succeeds)."
 ],
 "C39": [
  "proved",
  "Exact arithmetic (Rops instance of the model) for the values, order independence, sign and bounds; in f32: error rates in 0..1 (correctly rounded up to 2^24 examples), L2 non-negative, NaN without examples, for any exp/ln; names. In 32-bit floats: C39_f32_not_negative, C39_f32_rmse (the root is the rounded root of the computed squared error)."
 ],
 "C40": [
  "partial",
  "Gradients are derivatives (Huber: minus the derivative, C40_huber_gradient_refuted); within bounds in f32 for L1, Huber, Hinge, false for L2 and Binary (refuted theorems); leaf values in exact arithmetic: L2 minimiser, L1 within one bin of a minimiser, Huber step never worse than the median, Binary one Newton step; Hinge leaf value and start are no minimisers (refuted)."
 ],
 "C25": [
  "partial",
  "f32: proved for categorical data (C25_running_predictions); with numerical features the f32 statement is false of the code (C25_numerical_refuted); in exact arithmetic proved for all feature kinds (C25_running_predictions_exact)."
 ],
 "C44": [
  "partial",
  "L2: proved, in exact arithmetic (C44_L2_exact) and in f32 if the computed mean is the constant (C44_L2; C44_mean_integers: integers).  False of the code otherwise: L1 and Huber panic on every constant target (C44_median_refuted), Binary panics on all-0 or all-1 targets (C44_binary_refuted), L2 with a high-cardinality feature panics (C44_hicard_refuted), Hinge moves away from the constant (C44_hinge_refuted)."
 ],
 "C49": [
  "partial",
  "C49_training: exact arithmetic, objectives L2 (without high-cardinality features), Binary and Hinge, every schedule and random draw; C49_training_f32: the same in f32 for L2 (targets and numbers of examples and iterations within the stated bound) and Binary, for any exp and ln with the properties in TotalSpec.ordinary; C49_dataset: f32, the data set takes every history of updates whose gradients are numbers; C49_fractions; C49_loaded: what a sound file loads to is data training accepts; C49_from_file: f32 binary classification from a sound file, loading, training and predicting all succeed.  L1 and Huber, exact arithmetic: C49_median: training goes on exactly as long as the residuals are not all equal (targets not all equal); C49_median_first: so the first iteration succeeds; when the residuals are all equal the next iteration panics (constant targets: C44_median_refuted); Hinge overflows in f32 with the default settings (C49_hinge_refuted); debug builds panic on few examples (C49_debug_refuted).  C49_long_f32: f32 L2 on all examples (no example sampling) with learning rate in [0, 1] for long runs, because the squared error hardly grows (C56 in f32): (examples + 4) * iterations <= q * 2^23 with a + 3h + q + 7 <= 127.  Missing: f32 L2 with sampling or a learning rate outside [0, 1] beyond the bound a + m + iterations <= 127."
 ],
 "C37": [
  "partial",
  "Parsing proved for all strings (C37_record, C37_lines, C37_unique, C37_fields, C37_trim; the float parser is an argument).  Printed integers and lists joined with commas are read back (C37_print_*); false of the code: what write_doc_csv prints for Booleans, texts and lists is not read back (C37_bool_refuted, C37_text_refuted, C37_list_refuted, C37_texts_refuted), and text after a second equals sign is lost (C37_equals_refuted)."
 ],
 "C38": [
  "partial",
  "Proved for every program: replies (C38_replies), refusals before training or loading (C38_unready, C38_untrained), failed calls have no effect except a partly overwritten column (C38_failed), contexts are separate (C38_separate), settings (C38_config, C38_frozen), predictions of the trained model (C38_trained), which texts count as UTF-8 (C38_utf8).  False of the code: calls on freed contexts are undefined behaviour instead of being reported (C38_freed_refuted); the Python wrapper ignores the codes (C38_python_refuted)."
 ],
 "C50": [
  "proved",
  "Stated on the program's own knowledge (calls and replies), for every configuration, data, random draws and thread order, in debug and release builds and for any arithmetic.  Training and prediction are also safe on their own (C50_train, C50_predict).  The rules are needed: C50_short_refuted, C38_freed_refuted."
 ],
 "C51": [
  "proved",
  "For any arithmetic, both build modes except the debug assertion of into_cat (lib.rs:18), which the model leaves out: in a debug build a negative or fractional value of a high-cardinality feature panics."
 ],
 "C52": [
  "proved",
  "For any arithmetic and both build modes, over the model of the C API.  What fit hands to the training is stated as columns, kinds and number of bins; limits and cardinalities follow C36.  Not noticed by the wrapper, as theorems: a matrix without rows after another one, a short target (undefined behaviour), a failed training (zeros; part of C52_fit); the estimator's predict raises for a float64 matrix that fit accepts.  Copies of an object (copy, deepcopy, pickle) share its context: collecting both frees it twice, and the predictions of one are written past the end of its array after the other was given more rows (C52_copy_refuted)."
 ],
 "C53": [
  "proved",
  "f32, both build modes, any history and random numbers; numerical features with and without example sampling, hi-cardinality features without (with sampling the gradients are those of other rows, C41_sampled_refuted).  The ranks of hi-cardinality features need max_nbins + 1 <= 2 * active examples (otherwise the rank computation underflows, C49)."
 ],
 "C54": [
  "proved",
  "f32.  Files are given as the records the csv crate delivers (an empty file panics, C35); files of at most 2^31 records for the parts about safety, single trees and rows.  A panic while training ends the tool (C49 says when there is none).  Not covered: non-UTF-8 arguments (panic in env::args), the layout of what is printed, timings.  Observed: a test file without the target column is evaluated against its last feature; the message for a test file that fails to load prints the path of the training file."
 ],
 "C55": [
  "proved",
  "While the slices of one tree fit the 32-bit addresses of the stores (`room`; beyond it the stores panic, C14).  Borrowed slices are read once and written back when the borrow ends."
 ],
 "C56": [
  "proved",
  "Exact real arithmetic, discretised gradients included (the leaf values are exact means whatever splits the quantised histograms chose). In f32 the claim is false in the last digits; C56_round_f32, C56_rounds_f32 and C56_model_f32 bound how much the root of the sum of squares can grow: by a factor (1 + 2^-24)^(examples + 4) per iteration plus 2^-24 of the size of the targets and 2^-148 per example."
 ],
 "C57": [
  "proved",
  "C57_tree: binary32, gains as computed from the node's histograms (min_examples_leaf counts are exact). C57_exact: real arithmetic and min_examples_leaf = 1, gains of the specification (for min_examples_leaf >= 2 histograms can be wrong, C19)."
 ],
 "C58": [
  "proved",
  "C58_dataset_exact/f32: creating and updating the data set with every debug_assert of dataset.rs, binner.rs, lib.rs and simd.rs:465 gives the release build's state; C58_training: a model trained by a debug build is the release build's; C58_leaf_examples: the assertion of map_index; C58_sums: length assertions of the summing kernels; C58_predict (with C58_naturals for both arithmetics): prediction; C58_quantile_*.  Stated for sound data: a debug build does panic on few examples (C49_debug_refuted) and on new data with negative or fractional categories (Example C58_negative_category)."
 ],
 "C59": [
  "proved",
  "C59_row_order: exact arithmetic, the five objectives, any two successful runs; C59_training: on trainable data both orders succeed. C59_row_order_f32: bit for bit in f32 for the absolute error, which computes with counts, signs and medians only (no high-cardinality features, targets finite, not -0, at most 2^125). C59_f32_refuted: in f32 the squared error gives another model for another order."
 ],
 "C60": [
  "proved",
  "C60_prefix: the shorter training succeeds and yields the first trees, for any two configurations that agree on the settings that take part in learning; C60_resume: the same for the whole state (data set, objective, running predictions, random draws). The seed is outside same_learning because the draws are an argument of the model."
 ],
 "C61": [
  "proved",
  "C61_training, C61_reports: same model, running predictions and metrics, for every arithmetic; the uninformative columns must have the same number of bins in both tables (histogram sizes). C61_features: splits are on informative features; C61_row: a row's prediction depends on its values in the informative columns only (C51_row_only restricted to them)."
 ],
 "C62": [
  "proved",
  "Exact arithmetic (in f32 rounding depends on the size of the targets). C62_training: same trees, shifted bias; C62_run: running predictions, gradients and metrics after every number of iterations; C62_predict: predictions of every table."
 ],
 "C63": [
  "proved",
  "Exact arithmetic (in f32 the bin of a value near a border depends on rounding). C63_training: the same model with converted thresholds; C63_run: running predictions, gradients and metrics; C63_predict: rows in the new units."
 ],
 "C64": [
  "proved",
  "Exact arithmetic. C64_training, C64_run, C64_predict. Only for the absolute error: for the squared and Huber error the weights of the split candidates are |gradient| + EPSILON (dataset.rs 192-202), so with numerical features the candidates depend on the unit of the target (C68_numerical_refuted)."
 ],
 "C65": [
  "proved",
  "C65_draw: one sampling; C65_history: any history of updates with sample_freq 1, features and examples together (f32).  Probability is expressed by counting equally likely sequences of draws (gen_range is taken to be uniform)."
 ],
 "C66": [
  "proved",
  "Exact arithmetic, min_examples_leaf = 1 (for larger values the gains are wrong: C19_refuted). C66_l2, C66_l1, C66_binary, C66_huber, C66_hinge (the tree fitted in each round), C66_start (the starting constant). The leaf values of Hinge and the sign of Huber's gradients are not those of the losses (C40)."
 ],
 "C67": [
  "proved",
  "Exact arithmetic. C67_l1 (one iteration, any sampling), C67_rounds (any number of iterations), C67_huber. No such bound holds for Hinge (C40_hinge_leaf_refuted)."
 ],
 "C68": [
  "proved",
  "Exact arithmetic. C68_training and C68_converse (the model), C68_run (the running predictions), C68_predict (any rows). Without the restriction to categorical features it is false (C68_numerical_refuted): a constant is added to the weights of the examples from which the thresholds are taken."
 ],
 "C69": [
  "proved",
  "C69_tree (one tree), C69_levels (only the depth differs), C69_rows (leaves of rows), C69_model (the first trees of two models). Both trainings are assumed to succeed (C49)."
 ],
 "C70": [
  "proved",
  "C70_run (training state: predictions, metrics, model), C70_model (the model of Booster::train and its predictions), C70_all_features (feature fraction 1). C70_ties_refuted: without the no-tie hypothesis, which is part of the property, it is false. With feature sampling the drawn features depend on the order, so it is excluded."
 ],
 "C71": [
  "proved",
  "C71_run (training state: predictions, metrics, model), C71_model (the model of Booster::train and its predictions), C71_csv (tables loaded from CSV files). For data set through the C API the recorded limits of a constant column can be wrong (C36_limits_refuted); extra_constant is then not met."
 ],
 "C72": [
  "proved",
  "C72_run (training state, any arithmetic with a strict <), C72_model (f32: the model of Booster::train and its predictions), C72_model_R (exact arithmetic), C72_csv (tables loaded from CSV files). With feature sampling a copy changes which features are drawn."
 ],
 "C73": [
  "proved",
  "C73_run (training state, any arithmetic that represents the codes), C73_model (f32: the model of Booster::train and its predictions), C73_model_R (exact arithmetic), C73_training_rows, C73_csv (tables loaded from CSV files). With two codes the program keeps one bin only, so a gap there changes which side of a split is the left one; with min_examples_leaf = 0 an unused code may be split on."
 ],
 "C74": [
  "proved",
  "C74_reservoir_result (shape of the result), C74_reservoir (fairness, by counting draws), C74_reservoir_debug, C74_replacement, C74_replacement_empty. Dead code in the crate; the sampler that is used is C65's."
 ],
 "C75": [
  "proved",
  "C75_never_updated (no splits on numerical and high-cardinality features), C75_constant (with example sampling: one number for all rows)."
 ],
 "C76": [
  "proved",
  "C76_needs (necessary conditions of a successful training), C76_panics (their negation makes training panic). C49 has sufficient conditions."
 ],
 "C77": [
  "proved",
  "C77_first (one iteration: within the range of the targets), C77_bound (k iterations, any sampling), both for L2, L1 and Huber; C77_linear (L2, all examples used, learning rate at most 2). Exact arithmetic."
 ],
 "C78": [
  "proved",
  "C78_leaves (leaf count), C78_no_splits and C78_constant (fewer than two leaves' worth of examples). Any arithmetic; at most 2^31 active examples."
 ],
 "C79": [
  "proved",
  "C79_no_splits and C79_constant (min_gain NaN or infinite, reg_lambda NaN), C79_learning_rate (panics). 32-bit floats."
 ],
 "C80": [
  "proved",
  "C80_features and C80_count. Any arithmetic, any order of the jobs."
 ],
 "C81": [
  "proved",
  "C81_first_tree and C81_model (first tree of whole models): any arithmetic, any order of the jobs. C81_proportional: predictions after one iteration, on the real numbers. Later trees see other residuals."
 ],
 "C82": [
  "proved",
  "C82_exact (real numbers) and C82_f32 (rates 0 and -0; a zero bias may change its sign)."
 ]
}