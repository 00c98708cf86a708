{"claims": [
 {"property": "C01", "status": "proved", "theorems": ["C01_classic_clause_semantics", "C01_C02_clause_outputs_of_fitted", "C01_fires_means"], "note": ""},
 {"property": "C02", "status": "proved", "theorems": ["C02_bitwise_clause_semantics", "C01_C02_clause_outputs_of_fitted", "C02_fires_means"], "note": ""},
 {"property": "C03", "status": "proved", "theorems": ["C03_classifiers_agree", "C03_regressors_agree", "C03_clause_outputs_agree"], "note": ""},
 {"property": "C04", "status": "proved", "theorems": ["C04_decision_function_is_clamped_vote", "C04_decision_function_is_bounded"], "note": ""},
 {"property": "C05", "status": "proved", "theorems": ["C05_predicted_label_is_first_maximum"], "note": ""},
 {"property": "C06", "status": "proved", "theorems": ["C06_predict_batch_is_map", "C06_decision_function_batch_is_map", "C06_regressor_batch_is_map"], "note": ""},
 {"property": "C07", "status": "proved", "theorems": ["C07_regressor_response_is_clamped_count"], "note": ""},
 {"property": "C08", "status": "proved", "theorems": ["C08_predict_table", "C08_decision_function_table", "C08_predict_batch_table", "C08_decision_function_batch_table", "C08_regressor_predict_table", "C08_regressor_predict_batch_table", "C08_valid_samples"], "note": ""},
 {"property": "C09", "status": "proved", "theorems": ["C09_const_calls_change_nothing", "C09_const_calls_change_nothing_regressor", "C09_const_calls_are_invisible", "C09_const_calls_are_invisible_regressor"], "note": ""},
 {"property": "C12", "status": "proved", "theorems": ["C12_classic_classifier_states_in_range", "C12_classic_regressor_states_in_range", "C12_bitwise_classifier_states_in_range", "C12_bitwise_regressor_states_in_range", "C12_classifier_shape", "C12_regressor_shape"], "note": "bitwise estimators: number_of_states >= 2, as the property says"},
 {"property": "C13", "status": "proved", "theorems": ["C13_classifier_polarity_is_sign", "C13_regressor_polarity_is_sign"], "note": ""},
 {"property": "C15", "status": "proved", "theorems": ["C15_classifier_weights_in_range", "C15_regressor_weights_in_range"], "note": ""},
 {"property": "C16", "status": "proved", "theorems": ["C16_classifier_step_is_local", "C16_regressor_step_is_local"], "note": ""},
 {"property": "C17", "status": "proved", "theorems": ["C17_type1_firing_clause", "C17_type1_silent_clause"], "note": ""},
 {"property": "C18", "status": "proved", "theorems": ["C18_type2"], "note": ""},
 {"property": "C20", "status": "proved", "theorems": ["C20_opposite_label", "C20_every_label_possible"], "note": ""},
 {"property": "C22", "status": "proved", "theorems": ["C22_classifier_fit_table", "C22_classifier_partial_fit_table", "C22_regressor_fit_table", "C22_regressor_partial_fit_table"], "note": ""},
 {"property": "C23", "status": "proved", "theorems": ["C23_refit_classifier", "C23_refit_regressor"], "note": ""},
 {"property": "C25", "status": "proved", "theorems": ["C25_classifier_incremental", "C25_regressor_incremental"], "note": ""},
 {"property": "C26", "status": "proved", "theorems": ["C26_classifier_first_partial_fit", "C26_regressor_first_partial_fit"], "note": ""},
 {"property": "C27", "status": "proved", "theorems": ["C27_classifier_schedule_free", "C27_regressor_schedule_free"], "note": ""},
 {"property": "C28", "status": "proved", "theorems": ["C28_classifier_epochs", "C28_regressor_epochs", "C28_fit_initialises_then_trains", "C28_regressor_fit_initialises_then_trains"], "note": ""},
 {"property": "C29", "status": "proved", "theorems": ["C29_classifier_reproducible", "C29_regressor_reproducible"], "note": ""},
 {"property": "C42", "status": "proved", "theorems": ["C42_regressor_direction"], "note": ""},
 {"property": "C45", "status": "proved", "theorems": ["C45_classifier_counting_type", "C45_regressor_counting_type"], "note": ""},
 {"property": "C38", "status": "proved", "theorems": ["C38_numeric_matrix", "C38_bit_matrix", "C38_huge_matrices_refuted"], "note": "the natural expectation (every shape is usable) is refuted, with the exact condition"},
 {"property": "C36", "status": "proved", "theorems": ["C36_bit_vector_is_a_boolean_sequence", "C36_from_length", "C36_from_blocks"], "note": ""},
 {"property": "C37", "status": "proved", "theorems": ["C37_numeric_matrix_is_a_table", "C37_bit_matrix_is_a_table", "C37_numeric_rows_aligned", "C37_bit_rows_aligned"], "note": ""},
 {"property": "C10", "status": "proved", "theorems": ["C10_evaluate_is_the_accuracy"], "note": ""},
 {"property": "C19", "status": "proved", "theorems": ["C19_who_gets_feedback", "C19_nobody_else_is_touched", "C19_target_threshold", "C19_opposite_threshold", "C19_saturated_label_is_left_alone"], "note": ""},
 {"property": "C39", "status": "proved", "theorems": ["C39_toss_vectors", "C39_tosser_is_made", "C39_training_tosses", "C39_tosses_terminate", "C39_beyond_2_24_features_refuted"], "note": "termination needs a generator that eventually draws every index (hypothesis fair); beyond 2^24 features the claim is refuted"},
 {"property": "C43", "status": "proved", "theorems": ["C43_feedback_count_is_defined", "C43_feedback_count_is_proportional", "C43_box_muller_refuted", "C43_box_muller_defined", "C43_box_muller_undefined_refuted", "C43_large_C1_refuted"], "note": ""},
 {"property": "C44", "status": "proved", "theorems": ["C44_plain_losses", "C44_mixed_loss", "C44_berhu_refuted"], "note": ""},
 {"property": "C47", "status": "proved", "theorems": ["C47_classifier_fit_succeeds", "C47_classifier_partial_fit_succeeds", "C47_regressor_fit_succeeds", "C47_regressor_partial_fit_succeeds", "C47_classifier_calls_are_defined", "C47_regressor_calls_are_defined"], "note": ""},
 {"property": "C40", "status": "proved", "theorems": ["C40_integer_draws", "C40_float_draws", "C40_bounded_draws", "C40_equal_generators", "C40_generators_satisfy_the_laws"], "note": ""},
 {"property": "C41", "status": "proved", "theorems": ["C41_peek_is_the_next_draw", "C41_peek_refuted"], "note": ""},
 {"property": "C51", "status": "proved", "theorems": ["C51_integer_stream", "C51_float_stream"], "note": ""},
 {"property": "C11", "status": "proved", "theorems": ["C11_evaluate_unfitted", "C11_evaluate_too_few_labels", "C11_evaluate_nothing"], "note": ""},
 {"property": "C14", "status": "proved", "theorems": ["C14_one_state_refuted"], "note": "the natural expectation is refuted"},
 {"property": "C21", "status": "proved", "theorems": ["C21_single_label_refuted"], "note": "the natural expectation is refuted"},
 {"property": "C24", "status": "proved", "theorems": ["C24_fit_keeps_weights", "C24_refit_refuted"], "note": "the natural expectation is refuted"},
 {"property": "C46", "status": "proved", "theorems": ["C46_large_threshold_refuted"], "note": "the natural expectation is refuted"},
 {"property": "C52", "status": "proved", "theorems": ["C52_classifier_initial_state", "C52_regressor_initial_state"], "note": ""},
 {"property": "C32", "status": "proved", "theorems": ["C32_classifier_arguments", "C32_regressor_arguments", "C32_classifier_values_kept", "C32_regressor_values_kept"], "note": "the JSON side of the same decision is C33"},
 {"property": "C35", "status": "proved", "theorems": ["C35_classifier_keywords", "C35_regressor_keywords", "C35_fit_keywords"], "note": ""},
 {"property": "C49", "status": "proved", "theorems": ["C49_padding_check", "C49_surplus_blocks_refuted"], "note": ""},
 {"property": "C53", "status": "proved", "theorems": ["C53_second_classifier_refuted", "C53_second_regressor_refuted", "C53_other_variables_kept"], "note": "the natural expectation is refuted"},
 {"property": "C33", "status": "proved", "theorems": ["C33_classifier_document", "C33_regressor_document", "C33_unknown_key", "C33_reals_are_rounded", "C33_not_an_object", "C33_key_order"], "note": ""},
 {"property": "C34", "status": "proved", "theorems": ["C34_when_it_throws_refuted", "C34_when_it_is_undefined_refuted", "C34_otherwise_it_returns"], "note": "the natural expectation (never throws) is refuted, and the exact condition proved"},
 {"property": "C30", "status": "proved", "theorems": ["C30_classifier", "C30_regressor", "C30_infinite_loss_C1_refuted"], "note": "for the library's own generators; the text layer (dump, parse) is its contract on values; without the restriction to a finite loss_fn_C1 the natural expectation is refuted"},
 {"property": "C31", "status": "proved", "theorems": ["C31_unfitted_classifier_refuted", "C31_unfitted_regressor_refuted"], "note": "the natural expectation is refuted"},
 {"property": "C50", "status": "proved", "theorems": ["C50_aligned_array", "C50_aligned_array_copy", "C50_generator_buffer", "C50_power_of_two", "C50_rows", "C50_allocator"], "note": "the contract of _mm_malloc (an aligned block) is assumed for the rows"},
 {"property": "C48", "status": "proved", "theorems": ["C48_undisturbed_call", "C48_one_after_another", "C48_same_sample", "C48_some_label", "C48_data_race_refuted", "C48_read_race_refuted", "C48_other_answer_refuted", "C48_mixture_refuted"], "note": "sequentially consistent memory; the natural expectation (const calls may run concurrently) is refuted"},
 {"property": "C54", "status": "proved", "theorems": ["C54_equal_classifiers", "C54_equal_regressors", "C54_same_calls_classifier", "C54_same_calls_regressor", "C54_loaded_classifier", "C54_loaded_regressor", "C54_nan_refuted"], "note": "for the library's own generators; for a NaN loss_fn_C1 the natural expectation is refuted"},
 {"property": "C55", "status": "proved", "theorems": ["C55_classifier_objects", "C55_regressor_objects", "C55_classifier_clone", "C55_regressor_clone", "C55_moved_from_classifier", "C55_moved_from_regressor"], "note": "state after an exception thrown by a call is not modelled: a program ends there"},
 {"property": "C56", "status": "proved", "theorems": ["C56_classifier", "C56_regressor"], "note": ""},
 {"property": "C57", "status": "proved", "theorems": ["C57_assign", "C57_copy_construct", "C57_copy_construct_refuted"], "note": "for unaligned objects the natural expectation is refuted"},
 {"property": "C58", "status": "proved", "theorems": ["C58_same_loads", "C58_unreadable_classifier", "C58_unreadable_regressor", "C58_mixed_classifier", "C58_mixed_regressor", "C58_classifier_refuted", "C58_regressor_refuted"], "note": "for later failures the natural expectation (a failed load can be ignored) is refuted"},
 {"property": "C59", "status": "proved", "theorems": ["C59_regressor_in_classifier", "C59_classifier_in_regressor", "C59_bitwise_in_classic_classifier", "C59_bitwise_in_classic_regressor", "C59_classic_in_bitwise_classifier", "C59_classic_in_bitwise_regressor"], "note": "classifier in regressor: for parameters without the foreign key number_of_regressor_clauses, which only a JSON factory can store"},
 {"property": "C60", "status": "proved", "theorems": ["C60_training_loop", "C60_prediction_loop", "C60_calls", "C60_classifier", "C60_regressor"], "note": "sequentially consistent memory, one access per step; the loops have no data race, so that this is no restriction"},
 {"property": "C61", "status": "proved", "theorems": ["C61_one_thread", "C61_data_race_refuted", "C61_lost_output_refuted"], "note": "the natural expectation (any number of threads) is refuted"},
 {"property": "C62", "status": "proved", "theorems": ["C62_silent_kernels_agree", "C62_fired_kernels_agree", "C62_type2_kernels_agree", "C62_classifier_states_qualify", "C62_regressor_states_qualify", "C62_one_state_refuted"], "note": "for number_of_states = 1 the natural expectation is refuted; the kernel the bitwise estimators use for silent clauses, block1_sparse, draws positions instead of tosses and is covered by C17"},
 {"property": "C63", "status": "proved", "theorems": ["C63_mentions_states", "C63_mentions_bits", "C63_one_label", "C63_classifier", "C63_regressor", "C63_classifier_without_literals", "C63_regressor_without_literals"], "note": ""},
 {"property": "C64", "status": "proved", "theorems": ["C64_number_of_ones", "C64_byte_tosser", "C64_no_extra_refuted", "C64_too_many_refuted", "C64_bit_tosser", "C64_cache_tosser", "C64_few_features_refuted", "C64_many_features_refuted", "C64_pointer", "C64_unaligned_refuted"], "note": "the classes are not used by the public estimators; outside the stated domain the natural expectation is refuted"},
 {"property": "C65", "status": "proved", "theorems": ["C65_every_draw_once", "C65_too_many_reads", "C65_order_refuted"], "note": "not used by the public estimators; in generator order is refuted"},
 {"property": "C66", "status": "proved", "theorems": ["C66_containers_are_values", "C66_all_memory_freed", "C66_copy", "C66_independent", "C66_members", "C66_numeric_members", "C66_new_numeric", "C66_bit_matrix_members", "C66_new_bit_matrix", "C66_bit_vector_members", "C66_new_bit_vector", "C66_move", "C66_moved_from_numeric", "C66_moved_from_bits", "C66_swap", "C66_self_move_refuted", "C66_moved_from_bit_vector_refuted", "C66_moved_from_input_refuted"], "note": "std::vector as in libstdc++; allocation does not fail; for self-move and moved-from bit vectors the natural expectation is refuted"},
 {"property": "C67", "status": "proved", "theorems": ["C67_programs", "C67_nothing_leaks", "C67_maybe", "C67_try", "C67_lift"], "note": "copy and move constructors of the contents do not throw and have no other effect"},
 {"property": "C68", "status": "proved", "theorems": ["C68_chain", "C68_parameter_checks"], "note": ""},
 {"property": "C69", "status": "proved", "theorems": ["C69_mapping_consumes_refuted", "C69_copyable_kept"], "note": "for contents that cannot be copied the natural expectation is refuted"},
 {"property": "C70", "status": "proved", "theorems": ["C70_classifier_storage_is_irrelevant", "C70_regressor_storage_is_irrelevant"], "note": "both sequences of calls must complete (a wider matrix may not fit where a narrow one does; completion is C47); bitwise with number_of_states = 1 excluded (C14)"},
 {"property": "C71", "status": "proved", "theorems": ["C71_classifier_trivial_weights", "C71_regressor_trivial_weights"], "note": "as C70"},
 {"property": "C72", "status": "proved", "theorems": ["C72_reader", "C72_unambiguous", "C72_factories", "C72_loading", "C72_without_zero"], "note": "strtod is taken to round correctly and the locale to be C; texts containing a zero byte: C76"},
 {"property": "C73", "status": "proved", "theorems": ["C73_classifier", "C73_regressor", "C73_doubles_are_exact"], "note": ""},
 {"property": "C74", "status": "proved", "theorems": ["C74_classifier", "C74_regressor", "C74_unfitted_refuted"], "note": "for estimators that were never fitted the natural expectation is refuted"},
 {"property": "C75", "status": "proved", "theorems": ["C75_same_value", "C75_padding", "C75_member_order"], "note": ""},
 {"property": "C76", "status": "proved", "theorems": ["C76_zero_byte_refuted"], "note": "the natural expectation (only JSON texts are accepted) is refuted"},
 {"property": "C77", "status": "proved", "theorems": ["C77_classifier", "C77_classifier_decision_function", "C77_regressor", "C77_regressor_predictions"], "note": "bitwise with number_of_states = 1 excluded (C14)"},
 {"property": "C78", "status": "proved", "theorems": ["C78_classifier", "C78_regressor"], "note": "bitwise with number_of_states = 1 excluded (C14); up to 2^24 features"},
 {"property": "C79", "status": "proved", "theorems": ["C79_undisturbed_call", "C79_one_after_another", "C79_same_sample", "C79_some_response", "C79_data_race_refuted", "C79_read_race_refuted", "C79_other_answer_refuted", "C79_mixture_refuted"], "note": "sequentially consistent memory; the natural expectation (const calls may run concurrently) is refuted"},
 {"property": "C80", "status": "proved", "theorems": ["C80_classifier", "C80_regressor"], "note": "bitwise with number_of_states = 1 excluded (C14)"},
 {"property": "C81", "status": "proved", "theorems": ["C81_classifier", "C81_regressor", "C81_classifier_silent", "C81_regressor_silent"], "note": "calls that return; how values are printed is not modelled"},
 {"property": "C82", "status": "proved", "theorems": ["C82_scores_order_classifiers", "C82_score_one", "C82_score_one_large_refuted"], "note": "without the bound on the number of samples the expectation that 1 means all right is refuted"},
 {"property": "C83", "status": "proved", "theorems": ["C83_classifier", "C83_regressor", "C83_readable"], "note": "bitwise with number_of_states = 1 excluded (C14)"},
 {"property": "C84", "status": "proved", "theorems": ["C84_classifier", "C84_regressor", "C84_classifier_bitwise", "C84_regressor_bitwise", "C84_saved_classifier", "C84_saved_regressor", "C84_saved_classifier_bitwise", "C84_saved_regressor_bitwise"], "note": "bitwise with number_of_states = 1 excluded (C14)"}
]}
