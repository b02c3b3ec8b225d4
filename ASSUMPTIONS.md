# Print Assumptions for every theorem

Generated by tools/assumptions.py from the compiled files.  All axioms are of the standard library:

* A1: `ClassicalDedekindReals.sig_forall_dec`
* A2: `ClassicalDedekindReals.sig_not_dec`
* A3: `Classical_Prop.classic`
* A4: `FunctionalExtensionality.functional_extensionality_dep`

| property | theorem | file | axioms |
|---|---|---|---|
| C01 | C01_block_get_after_set | BitProps.v | none |
| C01 | C01_array_get_after_set | BitProps.v | none |
| C01 | C01_out_of_range_panics | BitProps.v | none |
| C01 | C01_typed_get_after_set | BitProps.v | none |
| C01 | C01_resize | StorageProps.v | none |
| C01 | C01_resize_to_nothing_panics | StorageProps.v | none |
| C01 | C01_count_ones | StorageProps.v | none |
| C01 | C01_is_zero | StorageProps.v | none |
| C02 | C02_zero_bits | BitProps.v | none |
| C02 | C02_one_bits | BitProps.v | none |
| C02 | C02_no_bits_panics | BitProps.v | none |
| C02 | C02_bitset | StorageProps.v | none |
| C02 | C02_store_zero | StorageProps.v | none |
| C02 | C02_store_one_bits | StoreProps.v | none |
| C03 | C03_enable_bit | BitProps.v | none |
| C03 | C03_disable_bit_refuted | BitProps.v | none |
| C03 | C03_disable_bit_frame_partial | BitProps.v | none |
| C03 | C03_history | BitsetProps.v | none |
| C03 | C03_out_of_range | BitsetProps.v | none |
| C04 | C04_from_iter | BitProps.v | none |
| C04 | C04_from_bool_iter | BitProps.v | none |
| C04 | C04_block_from_slice | StorageProps.v | none |
| C04 | C04_from_4u64 | StorageProps.v | none |
| C04 | C04_store_from_iter | StorageProps.v | none |
| C04 | C04_store_from_bits_iter | StoreProps.v | none |
| C05 | C05_blocks_required_for | BitProps.v | none |
| C06 | C06_get_after_set | SliceProps.v | none |
| C06 | C06_value_truncated | SliceProps.v | none |
| C06 | C06_out_of_range_panics | SliceProps.v | none |
| C06 | C06_value_bound | SliceProps.v | none |
| C06 | C06_bitslice_rs_agrees | SliceProps.v | none |
| C06 | C06_resize | StorageProps.v | none |
| C06 | C06_get_block | StorageProps.v | none |
| C06 | C06_store_zero_bitslice | StorageProps.v | none |
| C07 | C07_sum_masked | SliceProps.v | none |
| C07 | C07_out_of_range_panics | SliceProps.v | none |
| C07 | C07_copy_block | SliceProps.v | none |
| C08 | C08_count_ones_and | SliceProps.v | none |
| C08 | C08_count_ones_and_prefix | SliceProps.v | none |
| C08 | C08_or_assign | SliceProps.v | none |
| C09 | C09_sum_all_masked2 | SliceProps.v | none |
| C09 | C09_length_mismatch_panics | SliceProps.v | none |
| C10 | C10_count_ones_and_compr | SliceProps.v | none |
| C10 | C10_sum_all_masked2_compr | SliceProps.v | none |
| C10 | C10_bad_index_panics | SliceProps.v | none |
| C11 | C11_count_and2_c00 | SliceProps.v | none |
| C11 | C11_count_and2_c00_short_second_is_ub | SliceProps.v | none |
| C11 | C11_count_and2_c10 | SliceProps.v | none |
| C11 | C11_sum_and3_c00 | SliceProps.v | none |
| C11 | C11_sum_and3_c10 | SliceProps.v | none |
| C11 | C11_count_and2_c11 | SliceProps.v | none |
| C11 | C11_sum_and3_c11 | SliceProps.v | none |
| C12 | C12_index_iter | IterProps.v | none |
| C12 | C12_index_iter_and | IterProps.v | none |
| C12 | C12_index_iter_andnot | IterProps.v | none |
| C12 | C12_index_iter_compr | IterProps.v | none |
| C12 | C12_index_iter_and_compr | IterProps.v | none |
| C12 | C12_index_iter_andnot_compr | IterProps.v | none |
| C12 | C12_for_each_index | IterProps.v | none |
| C12 | C12_for_each_index_and | IterProps.v | none |
| C12 | C12_for_each_index_compr | IterProps.v | none |
| C12 | C12_for_each_index_and_compr | IterProps.v | none |
| C12 | C12_each_set_bit_once_in_order | IterProps.v | none |
| C12 | C12_empty_panics | IterProps.v | none |
| C13 | C13_contents | StoreProps.v | none |
| C13 | C13_placement | StoreProps.v | none |
| C13 | C13_no_failure | StoreProps.v | none |
| C13 | C13_double_free_overlaps | StoreProps.v | none |
| C14 | C14_layout | StoreProps.v | none |
| C14 | C14_write_frame | StoreProps.v | none |
| C14 | C14_subtract | StoreProps.v | none |
| C14 | C14_alloc | StoreProps.v | none |
| C15 | C15_partition | LearnerProps.v | none |
| C15 | C15_total | LearnerProps.v | none |
| C16 | C16_gradients | LearnerProps.v | none |
| C16 | C16_children | LearnerProps.v | none |
| C16 | C16_tree | LearnerProps.v | none |
| C16 | C16_model | SameProps.v | none |
| C17 | C17_order | LearnerProps.v | none |
| C17 | C17_threads | LearnerProps.v | none |
| C17 | C17_tree | LearnerProps.v | none |
| C17 | C17_model | SameProps.v | none |
| C17 | C17_release | SameProps.v | none |
| C17 | C17_few_active | SameProps.v | A1, A2, A3, A4 |
| C18 | C18_f32 | ErrProps.v | A1, A2, A3, A4 |
| C18 | C18_root | LearnerProps.v | none |
| C18 | C18_left | LearnerProps.v | none |
| C18 | C18_counts | LearnerProps.v | none |
| C19 | C19_f32 | ErrProps.v | A1, A2, A3, A4 |
| C19 | C19_exact | LearnerProps.v | A1, A4 |
| C19 | C19_min_examples_refuted | LearnerProps.v | A1, A2, A3, A4 |
| C20 | C20_f32 | ErrProps.v | A1, A2, A3, A4 |
| C20 | C20_best | LearnerProps.v | A1, A2, A3, A4 |
| C20 | C20_total | LearnerProps.v | none |
| C20 | C20_exact | LearnerProps.v | A1, A4 |
| C21 | C21_counts | TreeProps.v | none |
| C21 | C21_split | TreeProps.v | none |
| C21 | C21_ninternal | TreeProps.v | none |
| C21 | C21_limits | TreeProps.v | none |
| C21 | C21_supercat | TreeProps.v | none |
| C21 | C21_is_valid_node_id_refuted | TreeProps.v | A1, A2, A3, A4 |
| C21 | C21_valid_ids | TreeProps.v | none |
| C22 | C22_reaches_leaf | TreeProps.v | none |
| C23 | C23_trained | DatasetProps.v | A1, A2, A3, A4 |
| C23 | C23_hicard | TreeProps.v | none |
| C23 | C23_unseen_goes_right | TreeProps.v | none |
| C24 | C24_categorical | RouteProps.v | A1, A2, A3, A4 |
| C24 | C24_categorical_exact | RouteProps.v | A1, A4 |
| C24 | C24_numerical | RouteProps.v | A1, A4 |
| C24 | C24_nan_refuted | RouteProps.v | A1, A2, A3, A4 |
| C24 | C24_rounding_refuted | RouteProps.v | A1, A2, A3, A4 |
| C25 | C25_running_predictions | BoostProps.v | A1, A2, A3, A4 |
| C25 | C25_running_predictions_exact | BoostProps.v | A1, A2, A3, A4 |
| C25 | C25_numerical_refuted | BoostProps.v | A1, A2, A3, A4 |
| C26 | C26_leaves | TrainProps.v | none |
| C26 | C26_predicted_categorical | TrainProps.v | A1, A2, A3, A4 |
| C26 | C26_predicted_exact | TrainProps.v | A1, A4 |
| C27 | C27_draw | DatasetProps.v | none |
| C27 | C27_draw_too_many | DatasetProps.v | none |
| C27 | C27_draw_every_sample | DatasetProps.v | none |
| C27 | C27_active_examples | DatasetProps.v | none |
| C27 | C27_active_features | DatasetProps.v | none |
| C27 | C27_sample_size | DatasetProps.v | A1, A2, A3, A4 |
| C27 | C27_sample_size_large_refuted | DatasetProps.v | A1, A2, A3, A4 |
| C28 | C28_inactive | DatasetProps.v | none |
| C28 | C28_unsampled | DatasetProps.v | none |
| C29 | C29_not_due | DatasetProps.v | none |
| C29 | C29_due | DatasetProps.v | none |
| C29 | C29_schedule | DatasetProps.v | none |
| C30 | C30_half_step_f32 | ErrProps.v | A1, A2, A3, A4 |
| C30 | C30_range_and_store | ScaledProps.v | A1, A2, A3, A4 |
| C30 | C30_monotone | ScaledProps.v | A1, A2, A3, A4 |
| C30 | C30_saturates | ScaledProps.v | A1, A2, A3, A4 |
| C30 | C30_half_step_error | ScaledProps.v | A1, A4 |
| C31 | C31_sum_f32 | ErrProps.v | A1, A2, A3, A4 |
| C31 | C31_get_scaled_value | ScaledProps.v | A1, A4 |
| C31 | C31_linear | ScaledProps.v | A1, A4 |
| C31 | C31_sum_scaled_masked | ScaledProps.v | A1, A4 |
| C32 | C32_new | BinnerProps.v | A1, A2, A3, A4 |
| C32 | C32_total | BinnerProps.v | A1, A2, A3, A4 |
| C32 | C32_monotone | BinnerProps.v | A1, A2, A3, A4 |
| C32 | C32_low_values | BinnerProps.v | A1, A2, A3, A4 |
| C32 | C32_high_values | BinnerProps.v | A1, A2, A3, A4 |
| C32 | C32_overflowing_limits_refuted | BinnerProps.v | A1, A2, A3, A4 |
| C32 | C32_counters | BinnerProps.v | A1, A2, A3, A4 |
| C32 | C32_counters_total | BinnerProps.v | A1, A2, A3, A4 |
| C33 | C33_bin_with_rank | BinnerProps.v | none |
| C33 | C33_unique | BinnerProps.v | none |
| C33 | C33_one_pass | BinnerProps.v | none |
| C33 | C33_one_pass_u32 | BinnerProps.v | none |
| C33 | C33_one_pass_f32 | BinnerProps.v | A1, A2, A3, A4 |
| C34 | C34_quantile | BinnerProps.v | A1, A2, A3, A4 |
| C34 | C34_within_one_bin | BinnerProps.v | A1, A4 |
| C35 | C35_categories | DataProps.v | A1, A2, A3, A4 |
| C35 | C35_load | DataProps.v | A1, A2, A3, A4 |
| C35 | C35_no_records_panics | DataProps.v | A1, A2, A3, A4 |
| C35 | C35_columns | DataProps.v | A1, A2, A3, A4 |
| C35 | C35_target | DataProps.v | A1, A2, A3, A4 |
| C36 | C36_fresh | DataProps.v | A1, A2, A3, A4 |
| C36 | C36_limits_refuted | DataProps.v | A1, A2, A3, A4 |
| C36 | C36_replace | DataProps.v | A1, A2, A3, A4 |
| C36 | C36_replace_refuted | DataProps.v | A1, A2, A3, A4 |
| C36 | C36_error | DataProps.v | A1, A2, A3, A4 |
| C37 | C37_record | ConfigProps.v | none |
| C37 | C37_lines | ConfigProps.v | none |
| C37 | C37_unique | ConfigProps.v | none |
| C37 | C37_fields | ConfigProps.v | none |
| C37 | C37_trim | ConfigProps.v | none |
| C37 | C37_print_uint | ConfigProps.v | none |
| C37 | C37_print_uints | ConfigProps.v | none |
| C37 | C37_print_texts | ConfigProps.v | none |
| C37 | C37_equals_refuted | ConfigProps.v | none |
| C37 | C37_bool_refuted | ConfigProps.v | none |
| C37 | C37_text_refuted | ConfigProps.v | none |
| C37 | C37_list_refuted | ConfigProps.v | none |
| C37 | C37_texts_refuted | ConfigProps.v | none |
| C38 | C38_replies | CapiProps.v | none |
| C38 | C38_separate | CapiProps.v | none |
| C38 | C38_failed | CapiProps.v | none |
| C38 | C38_unready | CapiProps.v | none |
| C38 | C38_untrained | CapiProps.v | none |
| C38 | C38_trained | CapiProps.v | none |
| C38 | C38_frozen | CapiProps.v | none |
| C38 | C38_config | CapiProps.v | none |
| C38 | C38_freed_refuted | CapiProps.v | none |
| C38 | C38_python_refuted | CapiProps.v | none |
| C38 | C38_utf8 | Utf8Props.v | none |
| C39 | C39_l2 | MetricProps.v | A1, A2, A3, A4 |
| C39 | C39_rmse | MetricProps.v | A1, A2, A3, A4 |
| C39 | C39_binary_loss | MetricProps.v | A1, A2, A3, A4 |
| C39 | C39_error_rate | MetricProps.v | A1, A2, A3, A4 |
| C39 | C39_order | MetricProps.v | A1, A2, A3, A4 |
| C39 | C39_nonneg | MetricProps.v | A1, A2, A3, A4 |
| C39 | C39_zero_iff_equal | MetricProps.v | A1, A2, A3, A4 |
| C39 | C39_error_bounds | MetricProps.v | A1, A2, A3, A4 |
| C39 | C39_error_rate_f32 | MetricProps.v | A1, A2, A3, A4 |
| C39 | C39_empty_f32 | MetricProps.v | A1, A2, A3, A4 |
| C39 | C39_l2_nonneg_f32 | MetricProps.v | A1, A2, A3, A4 |
| C39 | C39_names | MetricProps.v | none |
| C39 | C39_names_list | MetricProps.v | none |
| C39 | C39_f32_not_negative | RmseProps.v | A1, A2, A3, A4 |
| C39 | C39_f32_rmse | RmseProps.v | A1, A2, A3, A4 |
| C40 | C40_gradient | ObjectiveProps.v | A1, A2, A3, A4 |
| C40 | C40_huber_gradient | ObjectiveProps.v | A1, A2, A3, A4 |
| C40 | C40_huber_gradient_refuted | ObjectiveProps.v | A1, A2, A3, A4 |
| C40 | C40_update | ObjectiveProps.v | none |
| C40 | C40_bounds | ObjectiveProps.v | A1, A2, A3, A4 |
| C40 | C40_bounds_l2_refuted | ObjectiveProps.v | A1, A2, A3, A4 |
| C40 | C40_bounds_binary | ObjectiveProps.v | A1, A2, A3, A4 |
| C40 | C40_bounds_binary_refuted | ObjectiveProps.v | A1, A2, A3, A4 |
| C40 | C40_hinge_lossless | ObjectiveProps.v | A1, A2, A3, A4 |
| C40 | C40_l2_leaf | ObjectiveProps.v | A1, A2, A3, A4 |
| C40 | C40_l1_leaf | ObjectiveProps.v | A1, A2, A3, A4 |
| C40 | C40_limits | ObjectiveProps.v | A1, A2, A3, A4 |
| C40 | C40_huber_leaf | ObjectiveProps.v | A1, A2, A3, A4 |
| C40 | C40_binary_leaf | ObjectiveProps.v | A1, A2, A3, A4 |
| C40 | C40_apply | ObjectiveProps.v | none |
| C40 | C40_hinge_leaf_refuted | ObjectiveProps.v | A1, A2, A3, A4 |
| C40 | C40_initialize | ObjectiveProps.v | none |
| C40 | C40_l2_bias | ObjectiveProps.v | A1, A2, A3, A4 |
| C40 | C40_binary_bias | ObjectiveProps.v | A1, A2, A3, A4 |
| C40 | C40_l1_bias | ObjectiveProps.v | A1, A2, A3, A4 |
| C40 | C40_hinge_bias_refuted | ObjectiveProps.v | A1, A2, A3, A4 |
| C40 | C40_names | ObjectiveProps.v | none |
| C41 | C41_unsampled | DatasetProps.v | none |
| C41 | C41_sampled_refuted | DatasetProps.v | A1, A2, A3, A4 |
| C41 | C41_groups | QuantProps.v | none |
| C41 | C41_ordered | QuantProps.v | A1, A4 |
| C42 | C42_sum | TreeProps.v | none |
| C42 | C42_push | TreeProps.v | none |
| C42 | C42_model_history | TreeProps.v | none |
| C42 | C42_history | TreeProps.v | none |
| C43 | C43_release | NodeStoreProps.v | none |
| C43 | C43_size | TrainProps.v | none |
| C43 | C43_terminates | TrainProps.v | none |
| C43 | C43_total | TrainProps.v | none |
| C43 | C43_min_examples_zero_refuted | TrainProps.v | A1, A2, A3, A4 |
| C44 | C44_L2_exact | ConstProps.v | A1, A2, A3, A4 |
| C44 | C44_L2 | ConstProps.v | A1, A2, A3, A4 |
| C44 | C44_mean_integers | ConstProps.v | A1, A2, A3, A4 |
| C44 | C44_median_refuted | ConstProps.v | A1, A2, A3, A4 |
| C44 | C44_hicard_refuted | ConstProps.v | A1, A2, A3, A4 |
| C44 | C44_hinge_refuted | ConstProps.v | A1, A2, A3, A4 |
| C44 | C44_binary_refuted | ConstProps.v | A1, A2, A3, A4 |
| C45 | C45_two_slices | StoreProps.v | none |
| C45 | C45_no_alias | StoreProps.v | none |
| C46 | C46_binary | DatasetProps.v | none |
| C46 | C46_constant | DatasetProps.v | none |
| C47 | C47_masks | DatasetProps.v | none |
| C48 | C48_reports | BoostProps.v | none |
| C49 | C49_debug_refuted | ConstProps.v | A1, A2, A3, A4 |
| C49 | C49_long_f32 | FitTotalProps.v | A1, A2, A3, A4 |
| C49 | C49_loaded | LoadProps.v | A1, A2, A3, A4 |
| C49 | C49_from_file | LoadProps.v | A1, A2, A3, A4 |
| C49 | C49_median | MedianProps.v | A1, A2, A3, A4 |
| C49 | C49_median_first | MedianProps.v | A1, A2, A3, A4 |
| C49 | C49_dataset | TotalProps.v | A1, A2, A3, A4 |
| C49 | C49_fractions | TotalProps.v | A1, A2, A3, A4 |
| C49 | C49_training | TotalProps.v | A1, A2, A3, A4 |
| C49 | C49_training_f32 | TotalProps.v | A1, A2, A3, A4 |
| C49 | C49_hinge_refuted | TotalProps.v | A1, A2, A3, A4 |
| C50 | C50_train | SafeProps.v | none |
| C50 | C50_predict | SafeProps.v | none |
| C50 | C50_program | SafeProps.v | none |
| C50 | C50_call | SafeProps.v | none |
| C50 | C50_short_refuted | SafeProps.v | none |
| C51 | C51_predicts | PredProps.v | none |
| C51 | C51_row_only | PredProps.v | none |
| C52 | C52_safe | PyProps.v | none |
| C52 | C52_freed | PyProps.v | none |
| C52 | C52_predict | PyProps.v | none |
| C52 | C52_fit | PyProps.v | none |
| C52 | C52_empty_refuted | PyProps.v | none |
| C52 | C52_short_refuted | PyProps.v | none |
| C52 | C52_dtype_refuted | PyProps.v | none |
| C52 | C52_copy_refuted | PyProps.v | none |
| C53 | C53_numerical | QuantProps.v | A1, A2, A3, A4 |
| C53 | C53_hicard | QuantProps.v | A1, A2, A3, A4 |
| C54 | C54_error | RunProps.v | A1, A2, A3, A4 |
| C54 | C54_reports | RunProps.v | A1, A2, A3, A4 |
| C54 | C54_safe | RunProps.v | A1, A2, A3, A4 |
| C54 | C54_rows | RunProps.v | A1, A2, A3, A4 |
| C54 | C54_same_file | RunProps.v | A1, A2, A3, A4 |
| C54 | C54_tree | RunProps.v | A1, A2, A3, A4 |
| C54 | C54_no_leak | RunProps.v | A1, A2, A3, A4 |
| C55 | C55_train | NodeStoreProps.v | none |
| C55 | C55_reuse | NodeStoreProps.v | none |
| C55 | C55_boost | NodeStoreProps.v | none |
| C56 | C56_round_f32 | FitErrProps.v | A1, A2, A3, A4 |
| C56 | C56_rounds_f32 | FitErrProps.v | A1, A2, A3, A4 |
| C56 | C56_model_f32 | FitErrProps.v | A1, A2, A3, A4 |
| C56 | C56_round | FitProps.v | A1, A2, A3, A4 |
| C56 | C56_rounds | FitProps.v | A1, A2, A3, A4 |
| C56 | C56_iterations | FitProps.v | A1, A2, A3, A4 |
| C57 | C57_tree | GreedyProps.v | A1, A2, A3, A4 |
| C57 | C57_exact | GreedyProps.v | A1, A4 |
| C58 | C58_dataset_exact | DebugProps.v | A1, A4 |
| C58 | C58_dataset_f32 | DebugProps.v | A1, A2, A3, A4 |
| C58 | C58_training | DebugProps.v | none |
| C58 | C58_sums | DebugProps.v | none |
| C58 | C58_leaf_examples | DebugProps.v | none |
| C58 | C58_predict | DebugProps.v | none |
| C58 | C58_naturals | DebugProps.v | A1, A2, A3, A4 |
| C58 | C58_quantile_exact | DebugProps.v | A1, A4 |
| C58 | C58_quantile_f32 | DebugProps.v | A1, A2, A3, A4 |
| C59 | C59_row_order | RowProps.v | A1, A2, A3, A4 |
| C59 | C59_training | RowProps.v | A1, A2, A3, A4 |
| C59 | C59_row_order_f32 | RowProps.v | A1, A2, A3, A4 |
| C59 | C59_f32_refuted | RowProps.v | A1, A2, A3, A4 |
| C60 | C60_prefix | PrefixProps.v | none |
| C60 | C60_resume | PrefixProps.v | none |
| C61 | C61_training | AlikeProps.v | none |
| C61 | C61_reports | AlikeProps.v | none |
| C61 | C61_features | AlikeProps.v | none |
| C61 | C61_row | AlikeProps.v | none |
| C62 | C62_training | ShiftProps.v | A1, A2, A3, A4 |
| C62 | C62_run | ShiftProps.v | A1, A2, A3, A4 |
| C62 | C62_predict | ShiftProps.v | A1, A2, A3, A4 |
| C63 | C63_training | UnitProps.v | A1, A2, A3, A4 |
| C63 | C63_run | UnitProps.v | A1, A2, A3, A4 |
| C63 | C63_predict | UnitProps.v | A1, A2, A3, A4 |
| C64 | C64_training | UnitProps.v | A1, A2, A3, A4 |
| C64 | C64_run | UnitProps.v | A1, A2, A3, A4 |
| C64 | C64_predict | UnitProps.v | A1, A2, A3, A4 |
| C65 | C65_draw | SampleProps.v | none |
| C65 | C65_history | SampleProps.v | A1, A2, A3, A4 |
| C66 | C66_l2 | BoostingProps.v | A1, A2, A3, A4 |
| C66 | C66_l1 | BoostingProps.v | A1, A2, A3, A4 |
| C66 | C66_binary | BoostingProps.v | A1, A2, A3, A4 |
| C66 | C66_huber | HuberProps.v | A1, A2, A3, A4 |
| C66 | C66_hinge | HuberProps.v | A1, A2, A3, A4 |
| C66 | C66_start | HuberProps.v | A1, A2, A3, A4 |
| C67 | C67_l1 | AbsFitProps.v | A1, A2, A3, A4 |
| C67 | C67_rounds | AbsFitProps.v | A1, A2, A3, A4 |
| C67 | C67_huber | AbsFitProps.v | A1, A2, A3, A4 |
| C68 | C68_training | ScaleProps.v | A1, A2, A3, A4 |
| C68 | C68_converse | ScaleProps.v | A1, A2, A3, A4 |
| C68 | C68_run | ScaleProps.v | A1, A2, A3, A4 |
| C68 | C68_predict | ScaleProps.v | A1, A2, A3, A4 |
| C68 | C68_numerical_refuted | ScaleProps.v | A1, A2, A3, A4 |
| C69 | C69_tree | PruneProps.v | A1, A2, A3, A4 |
| C69 | C69_levels | PruneProps.v | A1, A2, A3, A4 |
| C69 | C69_rows | PruneProps.v | none |
| C69 | C69_model | PruneProps.v | A1, A2, A3, A4 |
| C70 | C70_run | ColProps.v | A1, A2, A3, A4 |
| C70 | C70_model | ColProps.v | A1, A2, A3, A4 |
| C70 | C70_all_features | ColProps.v | A1, A2, A3, A4 |
| C70 | C70_ties_refuted | ColProps.v | A1, A2, A3, A4 |
| C71 | C71_run | WideProps.v | none |
| C71 | C71_model | WideProps.v | none |
| C71 | C71_csv | WideProps.v | A1, A2, A3, A4 |
| C72 | C72_run | DupProps.v | none |
| C72 | C72_model | DupProps.v | A1, A2, A3, A4 |
| C72 | C72_model_R | DupProps.v | A1, A4 |
| C72 | C72_csv | DupProps.v | A1, A2, A3, A4 |
| C73 | C73_run | GapProps.v | none |
| C73 | C73_model | GapProps.v | A1, A2, A3, A4 |
| C73 | C73_training_rows | GapProps.v | A1, A2, A3, A4 |
| C73 | C73_model_R | GapProps.v | A1, A4 |
| C73 | C73_csv | GapProps.v | A1, A2, A3, A4 |
| C74 | C74_reservoir_result | ReservoirProps.v | none |
| C74 | C74_reservoir | ReservoirProps.v | none |
| C74 | C74_reservoir_debug | ReservoirProps.v | none |
| C74 | C74_replacement | ReservoirProps.v | none |
| C74 | C74_replacement_empty | ReservoirProps.v | none |
| C75 | C75_never_updated | FreqProps.v | none |
| C75 | C75_constant | FreqProps.v | none |
| C76 | C76_needs | FreqProps.v | none |
| C76 | C76_panics | FreqProps.v | none |
| C77 | C77_first | BoundProps.v | A1, A2, A3, A4 |
| C77 | C77_bound | BoundProps.v | A1, A2, A3, A4 |
| C77 | C77_linear | BoundProps.v | A1, A2, A3, A4 |
| C78 | C78_no_splits | HalfProps.v | none |
| C78 | C78_constant | HalfProps.v | none |
| C78 | C78_leaves | HalfProps.v | none |
| C79 | C79_no_splits | MuteProps.v | A1, A2, A3, A4 |
| C79 | C79_constant | MuteProps.v | A1, A2, A3, A4 |
| C79 | C79_learning_rate | MuteProps.v | A1, A2, A3, A4 |
| C80 | C80_features | SubsetProps.v | none |
| C80 | C80_count | SubsetProps.v | none |
| C81 | C81_first_tree | ShrinkProps.v | none |
| C81 | C81_model | ShrinkProps.v | none |
| C81 | C81_proportional | ShrinkProps.v | A1, A4 |
| C82 | C82_exact | ZeroProps.v | A1, A4 |
| C82 | C82_f32 | ZeroProps.v | A1, A2, A3, A4 |
