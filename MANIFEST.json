{
 "claims": [
  {
   "property": "C01",
   "status": "proved",
   "theorems": [
    "C01_block_get_after_set",
    "C01_array_get_after_set",
    "C01_out_of_range_panics",
    "C01_typed_get_after_set",
    "C01_resize",
    "C01_resize_to_nothing_panics",
    "C01_count_ones",
    "C01_is_zero"
   ],
   "note": ""
  },
  {
   "property": "C02",
   "status": "proved",
   "theorems": [
    "C02_zero_bits",
    "C02_one_bits",
    "C02_no_bits_panics",
    "C02_bitset",
    "C02_store_zero",
    "C02_store_one_bits"
   ],
   "note": ""
  },
  {
   "property": "C03",
   "status": "partial",
   "theorems": [
    "C03_enable_bit",
    "C03_disable_bit_refuted",
    "C03_disable_bit_frame_partial",
    "C03_history",
    "C03_out_of_range"
   ],
   "note": "enable_bit and set_bit proved, and every history of them (C03_history); the disable_bit half is false of the code (bitset.rs:48-52 enables the bit): C03_disable_bit_refuted proves the bit is present after every disable_bit."
  },
  {
   "property": "C04",
   "status": "proved",
   "theorems": [
    "C04_from_iter",
    "C04_from_bool_iter",
    "C04_block_from_slice",
    "C04_from_4u64",
    "C04_store_from_iter",
    "C04_store_from_bits_iter"
   ],
   "note": ""
  },
  {
   "property": "C05",
   "status": "proved",
   "theorems": [
    "C05_blocks_required_for"
   ],
   "note": ""
  },
  {
   "property": "C06",
   "status": "proved",
   "theorems": [
    "C06_get_after_set",
    "C06_value_truncated",
    "C06_out_of_range_panics",
    "C06_value_bound",
    "C06_bitslice_rs_agrees",
    "C06_resize",
    "C06_get_block",
    "C06_store_zero_bitslice"
   ],
   "note": ""
  },
  {
   "property": "C07",
   "status": "proved",
   "theorems": [
    "C07_sum_masked",
    "C07_out_of_range_panics",
    "C07_copy_block"
   ],
   "note": ""
  },
  {
   "property": "C08",
   "status": "proved",
   "theorems": [
    "C08_count_ones_and",
    "C08_count_ones_and_prefix",
    "C08_or_assign"
   ],
   "note": ""
  },
  {
   "property": "C09",
   "status": "proved",
   "theorems": [
    "C09_sum_all_masked2",
    "C09_length_mismatch_panics"
   ],
   "note": ""
  },
  {
   "property": "C10",
   "status": "proved",
   "theorems": [
    "C10_count_ones_and_compr",
    "C10_sum_all_masked2_compr",
    "C10_bad_index_panics"
   ],
   "note": ""
  },
  {
   "property": "C11",
   "status": "proved",
   "theorems": [
    "C11_count_and2_c00",
    "C11_count_and2_c00_short_second_is_ub",
    "C11_count_and2_c10",
    "C11_sum_and3_c00",
    "C11_sum_and3_c10",
    "C11_count_and2_c11",
    "C11_sum_and3_c11"
   ],
   "note": ""
  },
  {
   "property": "C12",
   "status": "proved",
   "theorems": [
    "C12_index_iter",
    "C12_index_iter_and",
    "C12_index_iter_andnot",
    "C12_index_iter_compr",
    "C12_index_iter_and_compr",
    "C12_index_iter_andnot_compr",
    "C12_for_each_index",
    "C12_for_each_index_and",
    "C12_for_each_index_compr",
    "C12_for_each_index_and_compr",
    "C12_each_set_bit_once_in_order",
    "C12_empty_panics"
   ],
   "note": ""
  },
  {
   "property": "C13",
   "status": "proved",
   "theorems": [
    "C13_contents",
    "C13_placement",
    "C13_no_failure",
    "C13_double_free_overlaps"
   ],
   "note": ""
  },
  {
   "property": "C14",
   "status": "proved",
   "theorems": [
    "C14_layout",
    "C14_write_frame",
    "C14_subtract",
    "C14_alloc"
   ],
   "note": ""
  },
  {
   "property": "C15",
   "status": "proved",
   "theorems": [
    "C15_partition",
    "C15_total"
   ],
   "note": "Every node that occurs while growing a tree (root, children of splits), any arithmetic; C15_total: splitting does not fail if min_examples_leaf >= 1.  Up to 2^31 active examples."
  },
  {
   "property": "C16",
   "status": "proved",
   "theorems": [
    "C16_gradients",
    "C16_children",
    "C16_tree",
    "C16_model"
   ],
   "note": "Compressed or not, a node stores exactly the gradients of its examples; children, trees and all calls on the objective are the same for every compression threshold.  C16_model: whole models, in any arithmetic."
  },
  {
   "property": "C17",
   "status": "proved",
   "theorems": [
    "C17_order",
    "C17_threads",
    "C17_tree",
    "C17_model",
    "C17_release",
    "C17_few_active"
   ],
   "note": "Every order of the jobs (C17_order), every interleaving of threads that compute a bin and later write it under the lock (C17_threads), and the whole tree (C17_tree).  C17_model: whole models, all iterations; C17_release: a run that succeeds in a debug build has the same outcome in a release build."
  },
  {
   "property": "C18",
   "status": "proved",
   "theorems": [
    "C18_f32",
    "C18_root",
    "C18_left",
    "C18_counts"
   ],
   "note": "Built histograms (root and left children): exact count and projected gradient sum of the node's examples in each bin's mask, any arithmetic; counts are exact at every node.  C18_f32: in single precision (min_examples_leaf <= 1), bins and gradient sums of every node against the sum of the true clamped gradients, with an explicit error bound."
  },
  {
   "property": "C19",
   "status": "partial",
   "theorems": [
    "C19_f32",
    "C19_exact",
    "C19_min_examples_refuted"
   ],
   "note": "Exact arithmetic and min_examples_leaf <= 1 (C19_exact; counts for all: C18_counts); f32 with an explicit rounding-error bound that grows with the depth (C19_f32).  For min_examples_leaf >= 2 the property is false of the code: C19_min_examples_refuted."
  },
  {
   "property": "C20",
   "status": "proved",
   "theorems": [
    "C20_f32",
    "C20_best",
    "C20_total",
    "C20_exact"
   ],
   "note": "f32: with respect to the node's histograms (C20_best, NaN gains are never chosen) and, with an explicit bound for the rounding errors, with respect to the exact gains (C20_f32); exact arithmetic: with respect to the examples' gradients (C20_exact)."
  },
  {
   "property": "C21",
   "status": "partial",
   "theorems": [
    "C21_counts",
    "C21_split",
    "C21_ninternal",
    "C21_limits",
    "C21_supercat",
    "C21_is_valid_node_id_refuted",
    "C21_valid_ids"
   ],
   "note": "C21_counts, C21_split, C21_ninternal proved for every build history; the node-id check of the API is wrong and C21_is_valid_node_id_refuted proves it."
  },
  {
   "property": "C22",
   "status": "proved",
   "theorems": [
    "C22_reaches_leaf"
   ],
   "note": ""
  },
  {
   "property": "C23",
   "status": "proved",
   "theorems": [
    "C23_trained",
    "C23_hicard",
    "C23_unseen_goes_right"
   ],
   "note": ""
  },
  {
   "property": "C24",
   "status": "partial",
   "theorems": [
    "C24_categorical",
    "C24_categorical_exact",
    "C24_numerical",
    "C24_nan_refuted",
    "C24_rounding_refuted"
   ],
   "note": "Categorical features: proved in f32 (C24_categorical).  Numerical features: proved in exact arithmetic when the split leaves an example on the right (C24_numerical); in f32 the property is false for NaN values and for values on a bin boundary up to rounding (C24_nan_refuted, C24_rounding_refuted, both from a loaded csv file)."
  },
  {
   "property": "C25",
   "status": "partial",
   "theorems": [
    "C25_running_predictions",
    "C25_running_predictions_exact",
    "C25_numerical_refuted"
   ],
   "note": "f32: proved for categorical data (C25_running_predictions); with numerical features the f32 statement is false of the code (C25_numerical_refuted); in exact arithmetic proved for all feature kinds (C25_running_predictions_exact)."
  },
  {
   "property": "C26",
   "status": "proved",
   "theorems": [
    "C26_leaves",
    "C26_predicted_categorical",
    "C26_predicted_exact"
   ],
   "note": "Any arithmetic for the partition into leaves and the calls on the objective; agreement with the leaf prediction finds: categorical features in f32, all features in exact arithmetic (C24 for the reason)."
  },
  {
   "property": "C27",
   "status": "partial",
   "theorems": [
    "C27_draw",
    "C27_draw_too_many",
    "C27_draw_every_sample",
    "C27_active_examples",
    "C27_active_features",
    "C27_sample_size",
    "C27_sample_size_large_refuted"
   ],
   "note": "All clauses proved; the sample size round(fraction*n) is exact only up to 2^24 examples (C27_sample_size, and C27_sample_size_large_refuted beyond)."
  },
  {
   "property": "C28",
   "status": "proved",
   "theorems": [
    "C28_inactive",
    "C28_unsampled"
   ],
   "note": ""
  },
  {
   "property": "C29",
   "status": "proved",
   "theorems": [
    "C29_not_due",
    "C29_due",
    "C29_schedule"
   ],
   "note": ""
  },
  {
   "property": "C30",
   "status": "proved",
   "theorems": [
    "C30_half_step_f32",
    "C30_range_and_store",
    "C30_monotone",
    "C30_saturates",
    "C30_half_step_error"
   ],
   "note": "Range, storing, monotonicity and saturation in f32 for every input (NaN, infinities); half-step error in exact arithmetic (C30_half_step_error) and in f32 with a rounding-error bound (C30_half_step_f32)."
  },
  {
   "property": "C31",
   "status": "proved",
   "theorems": [
    "C31_sum_f32",
    "C31_get_scaled_value",
    "C31_linear",
    "C31_sum_scaled_masked"
   ],
   "note": "Exact arithmetic (Rops instance of the same model code); C31_sum_f32: f32 with a rounding-error bound."
  },
  {
   "property": "C32",
   "status": "proved",
   "theorems": [
    "C32_new",
    "C32_total",
    "C32_monotone",
    "C32_low_values",
    "C32_high_values",
    "C32_overflowing_limits_refuted",
    "C32_counters",
    "C32_counters_total"
   ],
   "note": "f32, all values including NaN/infinities, up to 2^24 bins.  Sending large values to the last bin needs a bin width that neither overflows nor is subnormal; C32_overflowing_limits_refuted shows the proviso is necessary."
  },
  {
   "property": "C33",
   "status": "proved",
   "theorems": [
    "C33_bin_with_rank",
    "C33_unique",
    "C33_one_pass",
    "C33_one_pass_u32",
    "C33_one_pass_f32"
   ],
   "note": "Generic in the weight type; instantiated to the u32 and f32 uses."
  },
  {
   "property": "C34",
   "status": "proved",
   "theorems": [
    "C34_quantile",
    "C34_within_one_bin"
   ],
   "note": "C34_quantile: f32, the reported value is the upper edge (lower edge of the last bin) of the bin holding the r-th smallest value; C34_within_one_bin: exact arithmetic."
  },
  {
   "property": "C35",
   "status": "proved",
   "theorems": [
    "C35_categories",
    "C35_load",
    "C35_no_records_panics",
    "C35_columns",
    "C35_target"
   ],
   "note": ""
  },
  {
   "property": "C36",
   "status": "partial",
   "theorems": [
    "C36_fresh",
    "C36_limits_refuted",
    "C36_replace",
    "C36_replace_refuted",
    "C36_error"
   ],
   "note": "A fresh column gets the same values, cardinality and kind as the CSV path (C36_fresh) and errors are reported (C36_error); the limits differ from the CSV path (C36_limits_refuted) and replacing data keeps old limits, cardinality and kind (C36_replace_refuted)."
  },
  {
   "property": "C37",
   "status": "partial",
   "theorems": [
    "C37_record",
    "C37_lines",
    "C37_unique",
    "C37_fields",
    "C37_trim",
    "C37_print_uint",
    "C37_print_uints",
    "C37_print_texts",
    "C37_equals_refuted",
    "C37_bool_refuted",
    "C37_text_refuted",
    "C37_list_refuted",
    "C37_texts_refuted"
   ],
   "note": "Parsing proved for all strings (C37_record, C37_lines, C37_unique, C37_fields, C37_trim; the float parser is an argument).  Printed integers and lists joined with commas are read back (C37_print_*); false of the code: what write_doc_csv prints for Booleans, texts and lists is not read back (C37_bool_refuted, C37_text_refuted, C37_list_refuted, C37_texts_refuted), and text after a second equals sign is lost (C37_equals_refuted)."
  },
  {
   "property": "C38",
   "status": "partial",
   "theorems": [
    "C38_replies",
    "C38_separate",
    "C38_failed",
    "C38_unready",
    "C38_untrained",
    "C38_trained",
    "C38_frozen",
    "C38_config",
    "C38_freed_refuted",
    "C38_python_refuted",
    "C38_utf8"
   ],
   "note": "Proved for every program: replies (C38_replies), refusals before training or loading (C38_unready, C38_untrained), failed calls have no effect except a partly overwritten column (C38_failed), contexts are separate (C38_separate), settings (C38_config, C38_frozen), predictions of the trained model (C38_trained), which texts count as UTF-8 (C38_utf8).  False of the code: calls on freed contexts are undefined behaviour instead of being reported (C38_freed_refuted); the Python wrapper ignores the codes (C38_python_refuted)."
  },
  {
   "property": "C39",
   "status": "proved",
   "theorems": [
    "C39_l2",
    "C39_rmse",
    "C39_binary_loss",
    "C39_error_rate",
    "C39_order",
    "C39_nonneg",
    "C39_zero_iff_equal",
    "C39_error_bounds",
    "C39_error_rate_f32",
    "C39_empty_f32",
    "C39_l2_nonneg_f32",
    "C39_names",
    "C39_names_list",
    "C39_f32_not_negative",
    "C39_f32_rmse"
   ],
   "note": "Exact arithmetic (Rops instance of the model) for the values, order independence, sign and bounds; in f32: error rates in 0..1 (correctly rounded up to 2^24 examples), L2 non-negative, NaN without examples, for any exp/ln; names. In 32-bit floats: C39_f32_not_negative, C39_f32_rmse (the root is the rounded root of the computed squared error)."
  },
  {
   "property": "C40",
   "status": "partial",
   "theorems": [
    "C40_gradient",
    "C40_huber_gradient",
    "C40_huber_gradient_refuted",
    "C40_update",
    "C40_bounds",
    "C40_bounds_l2_refuted",
    "C40_bounds_binary",
    "C40_bounds_binary_refuted",
    "C40_hinge_lossless",
    "C40_l2_leaf",
    "C40_l1_leaf",
    "C40_limits",
    "C40_huber_leaf",
    "C40_binary_leaf",
    "C40_apply",
    "C40_hinge_leaf_refuted",
    "C40_initialize",
    "C40_l2_bias",
    "C40_binary_bias",
    "C40_l1_bias",
    "C40_hinge_bias_refuted",
    "C40_names"
   ],
   "note": "Gradients are derivatives (Huber: minus the derivative, C40_huber_gradient_refuted); within bounds in f32 for L1, Huber, Hinge, false for L2 and Binary (refuted theorems); leaf values in exact arithmetic: L2 minimiser, L1 within one bin of a minimiser, Huber step never worse than the median, Binary one Newton step; Hinge leaf value and start are no minimisers (refuted)."
  },
  {
   "property": "C41",
   "status": "partial",
   "theorems": [
    "C41_unsampled",
    "C41_sampled_refuted",
    "C41_groups",
    "C41_ordered"
   ],
   "note": "Proved without example sampling: the sums and counts (C41_unsampled) and the groups made from them after any history (C41_groups: group of the mean gradient; C41_ordered).  False with sampling (C41_sampled_refuted: gradients are looked up with the local index)."
  },
  {
   "property": "C42",
   "status": "proved",
   "theorems": [
    "C42_sum",
    "C42_push",
    "C42_model_history",
    "C42_history"
   ],
   "note": ""
  },
  {
   "property": "C43",
   "status": "proved",
   "theorems": [
    "C43_release",
    "C43_size",
    "C43_terminates",
    "C43_total",
    "C43_min_examples_zero_refuted"
   ],
   "note": "C43_release: for a tree learned with any context a program can have (C55's store-level model), while the slices fit 32-bit addresses (`room`).  C43_min_examples_zero_refuted: with min_examples_leaf 0 training can panic (C43_total says when it succeeds)."
  },
  {
   "property": "C44",
   "status": "partial",
   "theorems": [
    "C44_L2_exact",
    "C44_L2",
    "C44_mean_integers",
    "C44_median_refuted",
    "C44_hicard_refuted",
    "C44_hinge_refuted",
    "C44_binary_refuted"
   ],
   "note": "L2: proved, in exact arithmetic (C44_L2_exact) and in f32 if the computed mean is the constant (C44_L2; C44_mean_integers: integers).  False of the code otherwise: L1 and Huber panic on every constant target (C44_median_refuted), Binary panics on all-0 or all-1 targets (C44_binary_refuted), L2 with a high-cardinality feature panics (C44_hicard_refuted), Hinge moves away from the constant (C44_hinge_refuted)."
  },
  {
   "property": "C45",
   "status": "proved",
   "theorems": [
    "C45_two_slices",
    "C45_no_alias"
   ],
   "note": ""
  },
  {
   "property": "C46",
   "status": "proved",
   "theorems": [
    "C46_binary",
    "C46_constant"
   ],
   "note": ""
  },
  {
   "property": "C47",
   "status": "proved",
   "theorems": [
    "C47_masks"
   ],
   "note": ""
  },
  {
   "property": "C48",
   "status": "proved",
   "theorems": [
    "C48_reports"
   ],
   "note": ""
  },
  {
   "property": "C49",
   "status": "partial",
   "theorems": [
    "C49_debug_refuted",
    "C49_long_f32",
    "C49_loaded",
    "C49_from_file",
    "C49_median",
    "C49_median_first",
    "C49_dataset",
    "C49_fractions",
    "C49_training",
    "C49_training_f32",
    "C49_hinge_refuted"
   ],
   "note": "C49_training: exact arithmetic, objectives L2 (without high-cardinality features), Binary and Hinge, every schedule and random draw; C49_training_f32: the same in f32 for L2 (targets and numbers of examples and iterations within the stated bound) and Binary, for any exp and ln with the properties in TotalSpec.ordinary; C49_dataset: f32, the data set takes every history of updates whose gradients are numbers; C49_fractions; C49_loaded: what a sound file loads to is data training accepts; C49_from_file: f32 binary classification from a sound file, loading, training and predicting all succeed.  L1 and Huber, exact arithmetic: C49_median: training goes on exactly as long as the residuals are not all equal (targets not all equal); C49_median_first: so the first iteration succeeds; when the residuals are all equal the next iteration panics (constant targets: C44_median_refuted); Hinge overflows in f32 with the default settings (C49_hinge_refuted); debug builds panic on few examples (C49_debug_refuted).  C49_long_f32: f32 L2 on all examples (no example sampling) with learning rate in [0, 1] for long runs, because the squared error hardly grows (C56 in f32): (examples + 4) * iterations <= q * 2^23 with a + 3h + q + 7 <= 127.  Missing: f32 L2 with sampling or a learning rate outside [0, 1] beyond the bound a + m + iterations <= 127."
  },
  {
   "property": "C50",
   "status": "proved",
   "theorems": [
    "C50_train",
    "C50_predict",
    "C50_program",
    "C50_call",
    "C50_short_refuted"
   ],
   "note": "Stated on the program's own knowledge (calls and replies), for every configuration, data, random draws and thread order, in debug and release builds and for any arithmetic.  Training and prediction are also safe on their own (C50_train, C50_predict).  The rules are needed: C50_short_refuted, C38_freed_refuted."
  },
  {
   "property": "C51",
   "status": "proved",
   "theorems": [
    "C51_predicts",
    "C51_row_only"
   ],
   "note": "For any arithmetic, both build modes except the debug assertion of into_cat (lib.rs:18), which the model leaves out: in a debug build a negative or fractional value of a high-cardinality feature panics."
  },
  {
   "property": "C52",
   "status": "proved",
   "theorems": [
    "C52_safe",
    "C52_freed",
    "C52_predict",
    "C52_fit",
    "C52_empty_refuted",
    "C52_short_refuted",
    "C52_dtype_refuted",
    "C52_copy_refuted"
   ],
   "note": "For any arithmetic and both build modes, over the model of the C API.  What fit hands to the training is stated as columns, kinds and number of bins; limits and cardinalities follow C36.  Not noticed by the wrapper, as theorems: a matrix without rows after another one, a short target (undefined behaviour), a failed training (zeros; part of C52_fit); the estimator's predict raises for a float64 matrix that fit accepts.  Copies of an object (copy, deepcopy, pickle) share its context: collecting both frees it twice, and the predictions of one are written past the end of its array after the other was given more rows (C52_copy_refuted)."
  },
  {
   "property": "C53",
   "status": "proved",
   "theorems": [
    "C53_numerical",
    "C53_hicard"
   ],
   "note": "f32, both build modes, any history and random numbers; numerical features with and without example sampling, hi-cardinality features without (with sampling the gradients are those of other rows, C41_sampled_refuted).  The ranks of hi-cardinality features need max_nbins + 1 <= 2 * active examples (otherwise the rank computation underflows, C49)."
  },
  {
   "property": "C54",
   "status": "proved",
   "theorems": [
    "C54_error",
    "C54_reports",
    "C54_safe",
    "C54_rows",
    "C54_same_file",
    "C54_tree",
    "C54_no_leak"
   ],
   "note": "f32.  Files are given as the records the csv crate delivers (an empty file panics, C35); files of at most 2^31 records for the parts about safety, single trees and rows.  A panic while training ends the tool (C49 says when there is none).  Not covered: non-UTF-8 arguments (panic in env::args), the layout of what is printed, timings.  Observed: a test file without the target column is evaluated against its last feature; the message for a test file that fails to load prints the path of the training file."
  },
  {
   "property": "C55",
   "status": "proved",
   "theorems": [
    "C55_train",
    "C55_reuse",
    "C55_boost"
   ],
   "note": "While the slices of one tree fit the 32-bit addresses of the stores (`room`; beyond it the stores panic, C14).  Borrowed slices are read once and written back when the borrow ends."
  },
  {
   "property": "C56",
   "status": "proved",
   "theorems": [
    "C56_round_f32",
    "C56_rounds_f32",
    "C56_model_f32",
    "C56_round",
    "C56_rounds",
    "C56_iterations"
   ],
   "note": "Exact real arithmetic, discretised gradients included (the leaf values are exact means whatever splits the quantised histograms chose). In f32 the claim is false in the last digits; C56_round_f32, C56_rounds_f32 and C56_model_f32 bound how much the root of the sum of squares can grow: by a factor (1 + 2^-24)^(examples + 4) per iteration plus 2^-24 of the size of the targets and 2^-148 per example."
  },
  {
   "property": "C57",
   "status": "proved",
   "theorems": [
    "C57_tree",
    "C57_exact"
   ],
   "note": "C57_tree: binary32, gains as computed from the node's histograms (min_examples_leaf counts are exact). C57_exact: real arithmetic and min_examples_leaf = 1, gains of the specification (for min_examples_leaf >= 2 histograms can be wrong, C19)."
  },
  {
   "property": "C58",
   "status": "proved",
   "theorems": [
    "C58_dataset_exact",
    "C58_dataset_f32",
    "C58_training",
    "C58_sums",
    "C58_leaf_examples",
    "C58_predict",
    "C58_naturals",
    "C58_quantile_exact",
    "C58_quantile_f32"
   ],
   "note": "C58_dataset_exact/f32: creating and updating the data set with every debug_assert of dataset.rs, binner.rs, lib.rs and simd.rs:465 gives the release build's state; C58_training: a model trained by a debug build is the release build's; C58_leaf_examples: the assertion of map_index; C58_sums: length assertions of the summing kernels; C58_predict (with C58_naturals for both arithmetics): prediction; C58_quantile_*.  Stated for sound data: a debug build does panic on few examples (C49_debug_refuted) and on new data with negative or fractional categories (Example C58_negative_category)."
  },
  {
   "property": "C59",
   "status": "proved",
   "theorems": [
    "C59_row_order",
    "C59_training",
    "C59_row_order_f32",
    "C59_f32_refuted"
   ],
   "note": "C59_row_order: exact arithmetic, the five objectives, any two successful runs; C59_training: on trainable data both orders succeed. C59_row_order_f32: bit for bit in f32 for the absolute error, which computes with counts, signs and medians only (no high-cardinality features, targets finite, not -0, at most 2^125). C59_f32_refuted: in f32 the squared error gives another model for another order."
  },
  {
   "property": "C60",
   "status": "proved",
   "theorems": [
    "C60_prefix",
    "C60_resume"
   ],
   "note": "C60_prefix: the shorter training succeeds and yields the first trees, for any two configurations that agree on the settings that take part in learning; C60_resume: the same for the whole state (data set, objective, running predictions, random draws). The seed is outside same_learning because the draws are an argument of the model."
  },
  {
   "property": "C61",
   "status": "proved",
   "theorems": [
    "C61_training",
    "C61_reports",
    "C61_features",
    "C61_row"
   ],
   "note": "C61_training, C61_reports: same model, running predictions and metrics, for every arithmetic; the uninformative columns must have the same number of bins in both tables (histogram sizes). C61_features: splits are on informative features; C61_row: a row's prediction depends on its values in the informative columns only (C51_row_only restricted to them)."
  },
  {
   "property": "C62",
   "status": "proved",
   "theorems": [
    "C62_training",
    "C62_run",
    "C62_predict"
   ],
   "note": "Exact arithmetic (in f32 rounding depends on the size of the targets). C62_training: same trees, shifted bias; C62_run: running predictions, gradients and metrics after every number of iterations; C62_predict: predictions of every table."
  },
  {
   "property": "C63",
   "status": "proved",
   "theorems": [
    "C63_training",
    "C63_run",
    "C63_predict"
   ],
   "note": "Exact arithmetic (in f32 the bin of a value near a border depends on rounding). C63_training: the same model with converted thresholds; C63_run: running predictions, gradients and metrics; C63_predict: rows in the new units."
  },
  {
   "property": "C64",
   "status": "proved",
   "theorems": [
    "C64_training",
    "C64_run",
    "C64_predict"
   ],
   "note": "Exact arithmetic. C64_training, C64_run, C64_predict. Only for the absolute error: for the squared and Huber error the weights of the split candidates are |gradient| + EPSILON (dataset.rs 192-202), so with numerical features the candidates depend on the unit of the target (C68_numerical_refuted)."
  },
  {
   "property": "C65",
   "status": "proved",
   "theorems": [
    "C65_draw",
    "C65_history"
   ],
   "note": "C65_draw: one sampling; C65_history: any history of updates with sample_freq 1, features and examples together (f32).  Probability is expressed by counting equally likely sequences of draws (gen_range is taken to be uniform)."
  },
  {
   "property": "C66",
   "status": "proved",
   "theorems": [
    "C66_l2",
    "C66_l1",
    "C66_binary",
    "C66_huber",
    "C66_hinge",
    "C66_start"
   ],
   "note": "Exact arithmetic, min_examples_leaf = 1 (for larger values the gains are wrong: C19_refuted). C66_l2, C66_l1, C66_binary, C66_huber, C66_hinge (the tree fitted in each round), C66_start (the starting constant). The leaf values of Hinge and the sign of Huber's gradients are not those of the losses (C40)."
  },
  {
   "property": "C67",
   "status": "proved",
   "theorems": [
    "C67_l1",
    "C67_rounds",
    "C67_huber"
   ],
   "note": "Exact arithmetic. C67_l1 (one iteration, any sampling), C67_rounds (any number of iterations), C67_huber. No such bound holds for Hinge (C40_hinge_leaf_refuted)."
  },
  {
   "property": "C68",
   "status": "proved",
   "theorems": [
    "C68_training",
    "C68_converse",
    "C68_run",
    "C68_predict",
    "C68_numerical_refuted"
   ],
   "note": "Exact arithmetic. C68_training and C68_converse (the model), C68_run (the running predictions), C68_predict (any rows). Without the restriction to categorical features it is false (C68_numerical_refuted): a constant is added to the weights of the examples from which the thresholds are taken."
  },
  {
   "property": "C69",
   "status": "proved",
   "theorems": [
    "C69_tree",
    "C69_levels",
    "C69_rows",
    "C69_model"
   ],
   "note": "C69_tree (one tree), C69_levels (only the depth differs), C69_rows (leaves of rows), C69_model (the first trees of two models). Both trainings are assumed to succeed (C49)."
  },
  {
   "property": "C70",
   "status": "proved",
   "theorems": [
    "C70_run",
    "C70_model",
    "C70_all_features",
    "C70_ties_refuted"
   ],
   "note": "C70_run (training state: predictions, metrics, model), C70_model (the model of Booster::train and its predictions), C70_all_features (feature fraction 1). C70_ties_refuted: without the no-tie hypothesis, which is part of the property, it is false. With feature sampling the drawn features depend on the order, so it is excluded."
  },
  {
   "property": "C71",
   "status": "proved",
   "theorems": [
    "C71_run",
    "C71_model",
    "C71_csv"
   ],
   "note": "C71_run (training state: predictions, metrics, model), C71_model (the model of Booster::train and its predictions), C71_csv (tables loaded from CSV files). For data set through the C API the recorded limits of a constant column can be wrong (C36_limits_refuted); extra_constant is then not met."
  },
  {
   "property": "C72",
   "status": "proved",
   "theorems": [
    "C72_run",
    "C72_model",
    "C72_model_R",
    "C72_csv"
   ],
   "note": "C72_run (training state, any arithmetic with a strict <), C72_model (f32: the model of Booster::train and its predictions), C72_model_R (exact arithmetic), C72_csv (tables loaded from CSV files). With feature sampling a copy changes which features are drawn."
  },
  {
   "property": "C73",
   "status": "proved",
   "theorems": [
    "C73_run",
    "C73_model",
    "C73_training_rows",
    "C73_model_R",
    "C73_csv"
   ],
   "note": "C73_run (training state, any arithmetic that represents the codes), C73_model (f32: the model of Booster::train and its predictions), C73_model_R (exact arithmetic), C73_training_rows, C73_csv (tables loaded from CSV files). With two codes the program keeps one bin only, so a gap there changes which side of a split is the left one; with min_examples_leaf = 0 an unused code may be split on."
  },
  {
   "property": "C74",
   "status": "proved",
   "theorems": [
    "C74_reservoir_result",
    "C74_reservoir",
    "C74_reservoir_debug",
    "C74_replacement",
    "C74_replacement_empty"
   ],
   "note": "C74_reservoir_result (shape of the result), C74_reservoir (fairness, by counting draws), C74_reservoir_debug, C74_replacement, C74_replacement_empty. Dead code in the crate; the sampler that is used is C65's."
  },
  {
   "property": "C75",
   "status": "proved",
   "theorems": [
    "C75_never_updated",
    "C75_constant"
   ],
   "note": "C75_never_updated (no splits on numerical and high-cardinality features), C75_constant (with example sampling: one number for all rows)."
  },
  {
   "property": "C76",
   "status": "proved",
   "theorems": [
    "C76_needs",
    "C76_panics"
   ],
   "note": "C76_needs (necessary conditions of a successful training), C76_panics (their negation makes training panic). C49 has sufficient conditions."
  },
  {
   "property": "C77",
   "status": "proved",
   "theorems": [
    "C77_first",
    "C77_bound",
    "C77_linear"
   ],
   "note": "C77_first (one iteration: within the range of the targets), C77_bound (k iterations, any sampling), both for L2, L1 and Huber; C77_linear (L2, all examples used, learning rate at most 2). Exact arithmetic."
  },
  {
   "property": "C78",
   "status": "proved",
   "theorems": [
    "C78_no_splits",
    "C78_constant",
    "C78_leaves"
   ],
   "note": "C78_leaves (leaf count), C78_no_splits and C78_constant (fewer than two leaves' worth of examples). Any arithmetic; at most 2^31 active examples."
  },
  {
   "property": "C79",
   "status": "proved",
   "theorems": [
    "C79_no_splits",
    "C79_constant",
    "C79_learning_rate"
   ],
   "note": "C79_no_splits and C79_constant (min_gain NaN or infinite, reg_lambda NaN), C79_learning_rate (panics). 32-bit floats."
  },
  {
   "property": "C80",
   "status": "proved",
   "theorems": [
    "C80_features",
    "C80_count"
   ],
   "note": "C80_features and C80_count. Any arithmetic, any order of the jobs."
  },
  {
   "property": "C81",
   "status": "proved",
   "theorems": [
    "C81_first_tree",
    "C81_model",
    "C81_proportional"
   ],
   "note": "C81_first_tree and C81_model (first tree of whole models): any arithmetic, any order of the jobs. C81_proportional: predictions after one iteration, on the real numbers. Later trees see other residuals."
  },
  {
   "property": "C82",
   "status": "proved",
   "theorems": [
    "C82_exact",
    "C82_f32"
   ],
   "note": "C82_exact (real numbers) and C82_f32 (rates 0 and -0; a zero bias may change its sign)."
  }
 ]
}